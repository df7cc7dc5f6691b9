(** Names of files, the parts of a listing. *)
From Coq Require Import ZArith List Bool Lia Permutation.
From Coq Require String Ascii.
From Verif.Model Require Import Base Utf Reader Image Resolver.
From Verif.Spec Require Import Install.
From Verif.Proofs Require Import ImageL.
Import ListNotations.
Import String.StringSyntax.
Open Scope Z_scope.

(** ** Dots. *)
Lemma cut_dot_some t : forall a b, cut_dot t = Some (a, b) <-> t = a ++ 46 :: b /\ ~ In 46 b.
Proof.
  induction t as [|x r IH]; intros a b; cbn [cut_dot].
  - split; [discriminate|]. intros [E _]. destruct a; discriminate E.
  - destruct (cut_dot r) as [[a' b']|] eqn:E.
    + destruct (IH a' b') as [IH1 _]. destruct (IH1 eq_refl) as [-> N]. split.
      * intros H. inversion H; subst. auto.
      * intros [H Nb]. destruct a as [|y a].
        -- cbn in H. inversion H; subst. exfalso. apply Nb. apply in_or_app. right. now left.
        -- cbn in H. inversion H as [[Hx Hr]]; subst. destruct (IH a b) as [_ IH2].
           specialize (IH2 (conj Hr Nb)). inversion IH2; subst. reflexivity.
    + assert (Nr : ~ In 46 r).
      { intros Hin. clear - IH Hin. apply in_split in Hin as (u & v & ->).
        assert (L : exists a b, u ++ 46 :: v = a ++ 46 :: b /\ ~ In 46 b).
        { clear. revert u. induction v as [|y v IHv] using rev_ind; intros u.
          - exists u, []. auto.
          - destruct (Z.eq_dec y 46) as [->|Ny].
            + exists (u ++ 46 :: v), []. split; [now rewrite <- app_assoc|auto].
            + destruct (IHv u) as (a & b & E & N). exists a, (b ++ [y]).
              split; [rewrite app_comm_cons, app_assoc, E; now rewrite <- app_assoc|].
              intros Hi. apply in_app_or in Hi as [Hi|[Hi|[]]]; auto. }
        destruct L as (a & b & E & N). specialize (IH a b). destruct IH as [_ IH].
        specialize (IH (conj E N)). discriminate. }
      destruct (Z.eqb_spec x 46) as [->|Nx].
      * split.
        -- intros H. inversion H; subst. auto.
        -- intros [H Nb]. destruct a as [|y a]; cbn in H; inversion H; subst; [reflexivity|].
           exfalso. apply Nr. apply in_or_app. right. now left.
      * split; [discriminate|]. intros [H Nb]. exfalso. destruct a as [|y a]; cbn in H; inversion H; subst; [now apply Nx|].
        apply Nr. apply in_or_app. right. now left.
Qed.
Lemma cut_dot_none t : cut_dot t = None -> ~ In 46 t.
Proof.
  induction t as [|x r IH]; cbn [cut_dot]; [auto|].
  destruct (cut_dot r) as [[a b]|]; [discriminate|].
  destruct (Z.eqb_spec x 46); [discriminate|]. intros _ [H|H]; [auto|]. now apply IH.
Qed.

Lemma stem_spec n : stem_of n (stem n).
Proof.
  unfold stem. destruct (cut_dot n) as [[a b]|] eqn:E.
  - apply cut_dot_some in E as [-> N]. destruct a as [|x a].
    + right. split; [reflexivity|]. right. now exists b.
    + left. split; [discriminate|]. now exists b.
  - apply cut_dot_none in E. right. auto.
Qed.
Lemma stem_of_stem n s : stem_of n s -> s = stem n.
Proof.
  intros [[Hs (e & Ne & ->)]|[-> H]]; unfold stem.
  - destruct (cut_dot (s ++ 46 :: e)) as [[a b]|] eqn:E.
    + assert (X : cut_dot (s ++ 46 :: e) = Some (s, e)) by now apply cut_dot_some.
      rewrite X in E. inversion E; subst. destruct a; [now elim Hs|reflexivity].
    + apply cut_dot_none in E. exfalso. apply E. apply in_or_app. right. now left.
  - destruct (cut_dot s) as [[a b]|] eqn:E; [|reflexivity].
    destruct H as [H|(e & Ne & ->)].
    + apply cut_dot_some in E as [-> _]. exfalso. apply H. apply in_or_app. right. now left.
    + assert (X : cut_dot (46 :: e) = Some ([], e)) by now apply cut_dot_some.
      rewrite X in E. now inversion E.
Qed.
Lemma stem_wz n : n <> [] -> stem (n ++ txt ".wz") = n.
Proof.
  intros H. symmetry. apply stem_of_stem. left. split; [exact H|]. exists (txt "wz").
  split; [|reflexivity]. cbn. intros [E|[E|[]]]; discriminate E.
Qed.

(** ** Underscores and numbers. *)
Lemma split_at_no c t : ~ In c t -> split_at c t = [t].
Proof.
  induction t as [|x r IH]; cbn [split_at]; [auto|]. intros N.
  destruct (Z.eqb_spec x c) as [->|Nx]; [exfalso; apply N; now left|].
  rewrite IH; [reflexivity|]. intros H. apply N. now right.
Qed.
Lemma split_at_app c a b : split_at c (a ++ c :: b) = split_at c a ++ split_at c b.
Proof.
  induction a as [|x r IH]; cbn [split_at app].
  - now rewrite Z.eqb_refl.
  - destruct (x =? c); [now rewrite IH|]. rewrite IH.
    destruct (split_at c r) as [|w ws] eqn:E; [|reflexivity].
    exfalso. clear - E. destruct r as [|y r]; cbn in E; [discriminate|].
    destruct (y =? c); [discriminate|]. destruct (split_at c r); discriminate.
Qed.
Lemma split_at_cons c t : exists w ws, split_at c t = w :: ws.
Proof.
  destruct t as [|x r]; cbn; [eauto|]. destruct (x =? c); [eauto|]. destruct (split_at c r); eauto.
Qed.
Lemma last_sep (c : Z) (t : text) : In c t -> exists a b, t = a ++ c :: b /\ ~ In c b.
Proof.
  induction t as [|x r IH]; intros H; [destruct H|].
  destruct (in_dec Z.eq_dec c r) as [Hr|Nr].
  - destruct (IH Hr) as (a & b & -> & N). now exists (x :: a), b.
  - destruct H as [->|H]; [|now elim Nr]. now exists [], r.
Qed.
Lemma last_app_one {A} (l : list A) x d : last (l ++ [x]) d = x.
Proof. induction l as [|y l IH]; [reflexivity|]. cbn. destruct (l ++ [x]) eqn:E; [destruct l; discriminate|exact IH]. Qed.

Lemma dec_from t : forall acc, 0 <= acc -> Forall (fun c => 48 <= c <= 57) t ->
  acc <= fold_left (fun a c => 10 * a + (c - 48)) t acc.
Proof.
  induction t as [|c r IH]; intros acc H F; cbn [fold_left]; [lia|]. inversion F; subst.
  specialize (IH (10 * acc + (c - 48))). assert (0 <= 10 * acc + (c - 48)) by lia. specialize (IH H0 H3). lia.
Qed.
Lemma u16_digits_spec t : forall acc, 0 <= acc <= 65535 ->
  (exists v, u16_digits t acc = Some v) <->
  Forall (fun c => 48 <= c <= 57) t /\ fold_left (fun a c => 10 * a + (c - 48)) t acc < 2 ^ 16.
Proof.
  change (2 ^ 16) with 65536.
  induction t as [|c r IH]; intros acc H; cbn [u16_digits fold_left].
  - split; [|eauto]. intros _. split; [constructor|lia].
  - destruct (Z.leb_spec 48 c) as [A|A]; cbn [andb].
    2:{ split; [intros [v E]; discriminate E|]. intros [F _]. inversion F; lia. }
    destruct (Z.leb_spec c 57) as [B|B].
    2:{ split; [intros [v E]; discriminate E|]. intros [F _]. inversion F; lia. }
    replace (acc * 10 + (c - 48)) with (10 * acc + (c - 48)) by lia.
    cbv zeta. destruct (Z.leb_spec (10 * acc + (c - 48)) 65535) as [D|D].
    + rewrite IH by lia. split; intros [F L]; split; auto; inversion F; auto.
    + split; [intros [v E]; discriminate E|]. intros [F L]. inversion F; subst.
      pose proof (dec_from r (10 * acc + (c - 48)) ltac:(lia) ltac:(assumption)). lia.
Qed.
Lemma parse_u16_spec t : (exists v, parse_u16 t = Some v) <->
  exists sign ds, t = sign ++ ds /\ (sign = [] \/ sign = [43]) /\ digits ds /\ dec ds < 2 ^ 16.
Proof.
  assert (core : forall d, (exists v, (match d with [] => None | _ => u16_digits d 0 end) = Some v) <-> digits d /\ dec d < 2 ^ 16).
  { intros d. destruct d as [|c r].
    - split; [intros [v E]; discriminate E|]. intros [[E _] _]. now elim E.
    - rewrite (u16_digits_spec (c :: r) 0) by lia. unfold digits, dec. split; [|tauto]. intros [F L].
      split; [split; [discriminate|exact F]|exact L]. }
  unfold parse_u16. split.
  - intros H. destruct (core (match t with 43 :: r => r | _ => t end)) as [C _]. specialize (C H). destruct C as [D L].
    destruct (list_eq_dec Z.eq_dec (match t with 43 :: r => r | _ => t end) t) as [E|E].
    + exists [], t. rewrite E in D, L. auto.
    + assert (T : exists r, t = 43 :: r).
      { destruct t as [|x r]; [now elim E|].
        destruct x as [|p|p]; try (now elim E). repeat (destruct p as [p|p|]; try (now elim E)). eauto. }
      destruct T as [r ->]. exists [43], r. auto.
  - intros (sign & ds & -> & [->| ->] & D & L).
    + cbn [app]. cbv zeta. assert (E : match ds with 43 :: r => r | _ => ds end = ds).
      { destruct D as [_ F]. destruct ds as [|x r]; [reflexivity|]. inversion F; subst.
        destruct x as [|p|p]; try reflexivity. repeat (destruct p as [p|p|]; try reflexivity). lia. }
      apply (core (match ds with 43 :: r => r | _ => ds end)). rewrite E. auto.
    + cbn [app]. apply core. auto.
Qed.
Lemma no_under sign ds : (sign = [] \/ sign = [43]) -> digits ds -> ~ In 95 (sign ++ ds).
Proof.
  intros S [_ F] H. apply in_app_or in H as [H|H].
  - destruct S as [->| ->]; [destruct H|]. destruct H as [H|[]]; discriminate H.
  - rewrite Forall_forall in F. apply F in H. lia.
Qed.
Lemma is_piece_spec n : is_piece n = true <-> piece_name n.
Proof.
  unfold is_piece, piece_name. pose proof (stem_spec n) as HS. split.
  - intros H. apply andb_prop in H as [L P].
    destruct (in_dec Z.eq_dec 95 (stem n)) as [I|N].
    2:{ rewrite split_at_no in L by assumption. discriminate L. }
    destruct (last_sep 95 (stem n) I) as (a & b & E & Nb).
    rewrite E, split_at_app, (split_at_no 95 b Nb), last_app_one in P.
    destruct (proj1 (parse_u16_spec b)) as (sign & ds & -> & S & D & V).
    { destruct (parse_u16 b); [eauto|discriminate P]. }
    exists a, sign, ds. rewrite <- E. auto.
  - intros (a & sign & ds & S & G & D & V). apply stem_of_stem in S. rewrite <- S.
    pose proof (no_under sign ds G D) as NU.
    rewrite split_at_app, (split_at_no 95 (sign ++ ds) NU), last_app_one.
    destruct (split_at_cons 95 a) as (w & ws & ->). cbn [app]. rewrite (app_comm_cons ws).
    rewrite app_length. cbn [length]. destruct (proj2 (parse_u16_spec (sign ++ ds))) as [v ->].
    { exists sign, ds. auto. }
    rewrite andb_true_r. apply Nat.leb_le. lia.
Qed.

(** ** Maps of children. *)
Lemma kid_at_in m k v : NoDup (map fst m) -> (kid_at m k = Some v <-> In (k, v) m).
Proof.
  induction m as [|[k' v'] r IH]; intros N; cbn [kid_at]; [split; [discriminate|intros []]|].
  inversion N as [|? ? Nk Nr]; subst. destruct (text_eqb k' k) eqn:E.
  - apply text_eqb_eq in E. subst. split; [intros H; inversion H; now left|].
    intros [H|H]; [now inversion H|]. exfalso. apply Nk. apply (in_map fst) in H. exact H.
  - rewrite (IH Nr). split; [now right|]. intros [H|H]; [|exact H]. inversion H; subst.
    rewrite text_eqb_refl in E. discriminate.
Qed.
Lemma kid_at_none m k : kid_at m k = None <-> ~ In k (map fst m).
Proof.
  induction m as [|[k' v'] r IH]; cbn [kid_at map fst]; [split; [intros _ []|auto]|].
  destruct (text_eqb k' k) eqn:E.
  - apply text_eqb_eq in E. subst. split; [discriminate|]. intros H. exfalso. apply H. now left.
  - rewrite IH. split.
    + intros N [H|H]; [subst; rewrite text_eqb_refl in E; discriminate|auto].
    + intros N H. apply N. now right.
Qed.
Lemma kid_at_put m k v x : kid_at (put_kid m k v) x = if text_eqb k x then Some v else kid_at m x.
Proof.
  induction m as [|[k' v'] r IH]; cbn [put_kid kid_at]; [reflexivity|].
  destruct (text_eqb k' k) eqn:E.
  - apply text_eqb_eq in E. subst. cbn [kid_at]. destruct (text_eqb k x); reflexivity.
  - cbn [kid_at]. rewrite IH. destruct (text_eqb k' x) eqn:E2; [|reflexivity].
    apply text_eqb_eq in E2. subst. destruct (text_eqb k x) eqn:E3; [|reflexivity].
    apply text_eqb_eq in E3. subst. rewrite text_eqb_refl in E. discriminate.
Qed.
Lemma put_kid_names m k v x : In x (map fst (put_kid m k v)) <-> x = k \/ In x (map fst m).
Proof.
  induction m as [|[k' v'] r IH]; cbn [put_kid map fst]; [cbn; intuition|].
  destruct (text_eqb k' k) eqn:E; cbn [map fst].
  - apply text_eqb_eq in E. subst. cbn. intuition.
  - cbn. rewrite IH. intuition.
Qed.
Lemma put_kid_nodup m k v : NoDup (map fst m) -> NoDup (map fst (put_kid m k v)).
Proof.
  induction m as [|[k' v'] r IH]; intros N; cbn [put_kid map fst]; [constructor; [intros []|constructor]|].
  inversion N as [|? ? Nk Nr]; subst. destruct (text_eqb k' k) eqn:E; cbn [map fst].
  - apply text_eqb_eq in E. subst. now constructor.
  - constructor; [|auto]. intros H. apply put_kid_names in H as [->|H]; [rewrite text_eqb_refl in E; discriminate|auto].
Qed.
Lemma put_kid_in m k v x w : In (x, w) (put_kid m k v) -> (x = k /\ w = v) \/ In (x, w) m.
Proof.
  induction m as [|[k' v'] r IH]; cbn [put_kid].
  - intros [H|[]]. inversion H; auto.
  - destruct (text_eqb k' k) eqn:E.
    + intros [H|H]; [inversion H; auto|right; now right].
    + intros [H|H]; [right; now left|]. destruct (IH H) as [?|?]; [now left|right; now right].
Qed.
Lemma put_kids_nodup f me l : forall m, NoDup (map fst m) -> NoDup (map fst (put_kids f me l m)).
Proof. unfold put_kids. induction l as [|[k w] r IH]; intros m N; cbn [fold_left]; [exact N|]. apply IH. now apply put_kid_nodup. Qed.
Lemma put_kids_in f me l : forall m x v, In (x, v) (put_kids f me l m) ->
  (exists w, In (x, w) l /\ v = RKid f w me) \/ In (x, v) m.
Proof.
  unfold put_kids. induction l as [|[k w] r IH]; intros m x v H; cbn [fold_left] in H; [auto|].
  apply IH in H as [(w' & Hin & ->)|H]; [left; exists w'; split; [now right|reflexivity]|].
  cbn [fst snd] in H. apply put_kid_in in H as [[-> ->]|H]; [|auto].
  left. exists w. split; [now left|reflexivity].
Qed.
Lemma put_kids_names f me l : forall m x, In x (map fst (put_kids f me l m)) <-> In x (map fst l) \/ In x (map fst m).
Proof.
  unfold put_kids. induction l as [|[k w] r IH]; intros m x; cbn [fold_left map fst]; [cbn; intuition|].
  rewrite IH. cbn [fst snd]. rewrite put_kid_names. cbn. intuition.
Qed.
Lemma put_kids_at f me l : NoDup (map fst l) -> forall m x,
  kid_at (put_kids f me l m) x =
  match find (fun kw => text_eqb (fst kw) x) l with
  | Some kw => Some (RKid f (snd kw) me)
  | None => kid_at m x
  end.
Proof.
  unfold put_kids. induction l as [|[k w] r IH]; intros N m x; cbn [fold_left find fst snd]; [reflexivity|].
  inversion N as [|? ? Nk Nr]; subst. rewrite (IH Nr). rewrite kid_at_put.
  destruct (text_eqb k x) eqn:E; [|reflexivity]. apply text_eqb_eq in E. subst.
  destruct (find _ r) as [[k' w']|] eqn:F; [|reflexivity].
  apply find_some in F as [Hin Ek]. cbn in Ek. apply text_eqb_eq in Ek. subst. exfalso. apply Nk.
  apply (in_map fst) in Hin. exact Hin.
Qed.

(** ** Listings. *)
Lemma find_file_in l n d : find_file l n = Some d -> In (FFile n d) l.
Proof.
  induction l as [|[m x|m x] r IH]; cbn [find_file]; [discriminate| |].
  - destruct (text_eqb m n) eqn:E; [|intros H; right; auto]. apply text_eqb_eq in E. subst. intros H; inversion H; now left.
  - intros H. right. auto.
Qed.
Lemma in_find_file l n d : NoDup (map ent_name l) -> In (FFile n d) l -> find_file l n = Some d.
Proof.
  induction l as [|e r IH]; intros N H; [destruct H|]. inversion N as [|? ? Ne Nr]; subst.
  destruct H as [->|H]; cbn [find_file].
  - now rewrite text_eqb_refl.
  - destruct e as [m x|m x]; [|auto]. destruct (text_eqb m n) eqn:E; [|auto].
    apply text_eqb_eq in E. subst. exfalso. apply Ne. cbn. apply (in_map ent_name) in H. exact H.
Qed.
Lemma find_dir_in l n d : find_dir l n = Some d -> In (FDir n d) l.
Proof.
  induction l as [|[m x|m x] r IH]; cbn [find_dir]; [discriminate| |].
  - intros H. right. auto.
  - destruct (text_eqb m n) eqn:E; [|intros H; right; auto]. apply text_eqb_eq in E. subst. intros H; inversion H; now left.
Qed.
Lemma in_one_name l e e' : NoDup (map ent_name l) -> In e l -> In e' l -> ent_name e = ent_name e' -> e = e'.
Proof.
  induction l as [|x r IH]; intros N H H' E; [destruct H|]. inversion N as [|? ? Ne Nr]; subst.
  destruct H as [->|H], H' as [->|H']; auto.
  - exfalso. apply Ne. rewrite E. now apply in_map.
  - exfalso. apply Ne. rewrite <- E. now apply in_map.
Qed.

(** An induction over directories. *)
Section FentInd.
  Variable P : fent -> Prop.
  Hypothesis Hf : forall n d, P (FFile n d).
  Hypothesis Hd : forall n l, (forall e, In e l -> P e) -> P (FDir n l).
  Fixpoint fent_ind' (e : fent) : P e :=
    match e with
    | FFile n d => Hf n d
    | FDir n l => Hd n l ((fix go (l : list fent) : forall e, In e l -> P e :=
        match l return forall e, In e l -> P e with
        | [] => fun e H => match H with end
        | x :: r => fun e H => match H with
                               | or_introl E => eq_ind x P (fent_ind' x) e E
                               | or_intror H' => go r e H'
                               end
        end) l)
    end.
End FentInd.
