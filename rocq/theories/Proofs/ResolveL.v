(** Putting an installation together: invariants of the loops. *)
From Coq Require Import ZArith List Bool Lia Permutation.
From Coq Require String Ascii.
From Verif.Model Require Import Base Utf Reader Image Resolver.
From Verif.Spec Require Import Install.
From Verif.Proofs Require Import ImageL InstallL.
Import ListNotations.
Import String.StringSyntax.
Open Scope Z_scope.

Lemma rbind_ok {A B} (x : res A) (f : A -> res B) y : rbind x f = Ok y -> exists a, x = Ok a /\ f a = Ok y.
Proof. destruct x; cbn; try discriminate. eauto. Qed.
Section Resolve.
  Variable open_file : opts -> list Z -> option (res (list (text * Z)) * (Z * Z)).
  Notation resolve_dir := (resolve_dir open_file).
  Notation assembled := (assembled open_file).
  Notation ready := (ready open_file).
  Notation offers := (offers open_file).
  Notation gives := (gives open_file).

  Definition dir_loop (o : opts) (dir me : loc) : list fent -> list (text * rnode) -> res (list (text * rnode)) :=
    fix go (es : list fent) (m : list (text * rnode)) {struct es} : res (list (text * rnode)) :=
    match es with
    | [] => Ok m
    | e :: r =>
      match e with
      | FDir n _ =>
        match kid_at m n with
        | Some _ => rbind (resolve_dir o e (dir ++ [n]) (n ++ txt ".wz") (Some me))
                      (fun s => go r (put_kid m n s))
        | None => go r m
        end
      | FFile n piece =>
        if is_piece n then
          match open_file o piece with
          | None => Panic
          | Some (Ok ks, _) => go r (put_kids (dir ++ [n]) me ks m)
          | Some (Err _, _) => go r m
          | Some (Panic, _) => Panic
          | Some (OutOfFuel, _) => OutOfFuel
          end
        else go r m
      end
    end.
  Lemma resolve_dir_eq o dn l dir fname up : resolve_dir o (FDir dn l) dir fname up =
    match find_file l fname with
    | None => Panic
    | Some data =>
      match open_file o data with
      | None => Panic
      | Some (own, (patch, keys)) =>
        match own with
        | Ok kids => rmap (RFile (stem fname) (dir ++ [fname]) up patch keys)
                       (dir_loop o dir (dir ++ [fname]) l (put_kids (dir ++ [fname]) (dir ++ [fname]) kids []))
        | Err _ => Panic
        | Panic => Panic
        | OutOfFuel => OutOfFuel
        end
      end
    end.
  Proof. reflexivity. Qed.
  Lemma resolve_dir_ok o dn l dir fname up s : resolve_dir o (FDir dn l) dir fname up = Ok s ->
    exists data kids patch keys m, find_file l fname = Some data /\ open_file o data = Some (Ok kids, (patch, keys)) /\
      dir_loop o dir (dir ++ [fname]) l (put_kids (dir ++ [fname]) (dir ++ [fname]) kids []) = Ok m /\
      s = RFile (stem fname) (dir ++ [fname]) up patch keys m.
  Proof.
    rewrite resolve_dir_eq. destruct (find_file l fname) as [data|] eqn:Fd; [|discriminate].
    destruct (open_file o data) as [[own [patch keys]]|] eqn:Op; [|discriminate].
    destruct own as [kids| | |]; try discriminate. unfold rmap.
    destruct (dir_loop _ _ _ _ _) as [m| | |] eqn:L; try discriminate. intros E. inversion E.
    exists data, kids, patch, keys, m. auto.
  Qed.

  (** *** What holds of every result. *)
  Lemma resolve_linked e : forall o dir fname up s, resolve_dir o e dir fname up = Ok s ->
    linked s /\ up_of s = up.
  Proof.
    induction e as [n d|dn l IH] using fent_ind'; intros o dir fname up s H; [discriminate H|].
    apply resolve_dir_ok in H as (data & kids & patch & keys & m & Fd & Op & L & ->). split; [|reflexivity].
    constructor. set (me := dir ++ [fname]) in *.
    assert (I0 : forall x v, In (x, v) (put_kids me me kids []) -> up_of v = Some me /\ linked v).
    { intros x v Hin. apply put_kids_in in Hin as [(w & _ & ->)|[]]. split; [reflexivity|constructor]. }
    clearbody me. revert L I0. generalize (put_kids me me kids []).
    assert (IH' : forall es, incl es l -> forall a, dir_loop o dir me es a = Ok m ->
      (forall x v, In (x, v) a -> up_of v = Some me /\ linked v) -> forall x v, In (x, v) m -> up_of v = Some me /\ linked v).
    { induction es as [|e r IHe]; intros Hi a L I0; cbn [dir_loop] in L; fold (dir_loop o dir me) in L; [inversion L; subst; exact I0|].
      assert (Hr : incl r l) by (intros y Hy; apply Hi; now right).
      destruct e as [n piece|n sub].
      - destruct (is_piece n); [|now apply (IHe Hr a)]. destruct (open_file o piece) as [[[ks| | |] pk]|]; try discriminate L.
        + refine (IHe Hr _ L _). intros x v Hin. apply put_kids_in in Hin as [(w & _ & ->)|Hin]; [|now apply (I0 x)].
          split; [reflexivity|constructor].
        + now apply (IHe Hr a).
      - destruct (kid_at a n); [|now apply (IHe Hr a)].
        apply rbind_ok in L as (s & Rs & L).
        refine (IHe Hr _ L _). intros x v Hin. apply put_kid_in in Hin as [[-> ->]|Hin]; [|now apply (I0 x)].
        destruct (IH (FDir n sub) (Hi _ (or_introl eq_refl)) _ _ _ _ _ Rs). auto. }
    intros a. apply IH'. apply incl_refl.
  Qed.

  Lemma resolve_from_disk fs e : forall o dir fname up s x, resolve_dir o e dir fname up = Ok s ->
    (forall dn l, e = FDir dn l -> forall y d, lies l y d -> lies fs (dir ++ y) d) -> from_disk open_file o fs x s.
  Proof.
    induction e as [n d|dn l IH] using fent_ind'; intros o dir fname up s x H Hl; [discriminate H|].
    specialize (Hl dn l eq_refl).
    apply resolve_dir_ok in H as (data & kids & patch & keys & m & Fd & Op & L & ->).
    apply find_file_in in Fd. set (me := dir ++ [fname]) in *.
    assert (Hme : lies fs me data) by (apply Hl; now constructor).
    refine (disk_file _ _ _ _ _ _ _ _ _ _ _ _ Hme Op _).
    assert (I0 : forall x v, In (x, v) (put_kids me me kids []) -> from_disk open_file o fs x v).
    { intros y v Hin. apply put_kids_in in Hin as [(w & Hw & ->)|[]]. eapply disk_kid; eauto. now exists (patch, keys). }
    clearbody me. revert L I0. generalize (put_kids me me kids []).
    assert (IH' : forall es, incl es l -> forall a, dir_loop o dir me es a = Ok m ->
      (forall x v, In (x, v) a -> from_disk open_file o fs x v) -> forall x v, In (x, v) m -> from_disk open_file o fs x v).
    { induction es as [|e r IHe]; intros Hi a L I0; cbn [dir_loop] in L; fold (dir_loop o dir me) in L; [inversion L; subst; exact I0|].
      assert (Hr : incl r l) by (intros y Hy; apply Hi; now right).
      assert (Ie : In e l) by (apply Hi; now left).
      destruct e as [n piece|n sub].
      - destruct (is_piece n); [|now apply (IHe Hr a)]. destruct (open_file o piece) as [[[ks| | |] pk]|] eqn:Opp; try discriminate L.
        + refine (IHe Hr _ L _). intros y v Hin. apply put_kids_in in Hin as [(w & Hw & ->)|Hin]; [|now apply (I0 y)].
          refine (disk_kid open_file o fs y (dir ++ [n]) w me piece ks _ _ Hw); [apply Hl; now constructor|now exists pk].
        + now apply (IHe Hr a).
      - destruct (kid_at a n); [|now apply (IHe Hr a)].
        apply rbind_ok in L as (s & Rs & L).
        refine (IHe Hr _ L _). intros y v Hin. apply put_kid_in in Hin as [[-> ->]|Hin]; [|now apply (I0 y)].
        refine (IH (FDir n sub) Ie _ _ _ _ _ _ Rs _). intros dn' l' E. inversion E; subst. intros z d Hz.
        rewrite <- app_assoc. apply Hl. cbn [app]. now apply lies_in with (sub := l'). }
    intros a. apply IH'. apply incl_refl.
  Qed.
  Lemma dir_at_lies p : forall fs l y d, dir_at fs p = Some l -> lies l y d -> lies fs (p ++ y) d.
  Proof.
    induction p as [|n r IH]; intros fs l y d H L; cbn [dir_at] in H; [inversion H; subst; exact L|].
    destruct (find_dir fs n) as [l'|] eqn:Fd; [|discriminate]. apply find_dir_in in Fd.
    cbn [app]. eapply lies_in; [exact Fd|]. eapply IH; eauto.
  Qed.

  (** *** The tree of a tidy directory. *)
  Lemma gives_fun o d ks ks' : gives o d ks -> gives o d ks' -> ks = ks'.
  Proof. intros [pk E] [pk' E']. rewrite E in E'. now inversion E'. Qed.
  Lemma offers_incl o l l' f k w : incl l l' -> offers o l f k w -> offers o l' f k w.
  Proof. intros I (d & ks & H1 & H2 & H3 & H4). exists d, ks. auto. Qed.
  Lemma find_kw (ks : list (text * Z)) k w : NoDup (map fst ks) -> In (k, w) ks ->
    find (fun kw => text_eqb (fst kw) k) ks = Some (k, w).
  Proof.
    induction ks as [|[k' w'] r IH]; intros N H; [destruct H|]. inversion N as [|? ? Nk Nr]; subst. cbn [find fst].
    destruct H as [H|H].
    - inversion H; subst. now rewrite text_eqb_refl.
    - destruct (text_eqb k' k) eqn:E; [|auto]. apply text_eqb_eq in E. subst. exfalso. apply Nk.
      apply (in_map fst) in H. exact H.
  Qed.
  Lemma find_kw_none (ks : list (text * Z)) k : ~ In k (map fst ks) -> find (fun kw => text_eqb (fst kw) k) ks = None.
  Proof.
    induction ks as [|[k' w'] r IH]; intros N; [reflexivity|]. cbn [find fst]. destruct (text_eqb k' k) eqn:E.
    - apply text_eqb_eq in E. subst. exfalso. apply N. now left.
    - apply IH. intros H. apply N. now right.
  Qed.
  Lemma put_kids_keep f me ks m k v : NoDup (map fst m) -> NoDup (map fst ks) -> ~ In k (map fst ks) -> In (k, v) m ->
    In (k, v) (put_kids f me ks m).
  Proof.
    intros N Nk Hk H. apply kid_at_in; [now apply put_kids_nodup|]. rewrite put_kids_at by assumption.
    rewrite find_kw_none by assumption. now apply kid_at_in.
  Qed.
  Lemma put_kids_new f me ks m k w : NoDup (map fst m) -> NoDup (map fst ks) -> In (k, w) ks ->
    In (k, RKid f w me) (put_kids f me ks m).
  Proof.
    intros N Nk H. apply kid_at_in; [now apply put_kids_nodup|]. rewrite put_kids_at by assumption.
    now rewrite (find_kw ks k w).
  Qed.
  Lemma put_kid_keep m k v x w : NoDup (map fst m) -> x <> k -> In (x, w) m -> In (x, w) (put_kid m k v).
  Proof.
    intros N Hx H. apply kid_at_in; [now apply put_kid_nodup|]. rewrite kid_at_put.
    destruct (text_eqb k x) eqn:E; [apply text_eqb_eq in E; congruence|]. now apply kid_at_in.
  Qed.
  Lemma put_kid_new m k v : NoDup (map fst m) -> In (k, v) (put_kid m k v).
  Proof. intros N. apply kid_at_in; [now apply put_kid_nodup|]. now rewrite kid_at_put, text_eqb_refl. Qed.

  Lemma ready_name l fname o : ready o l fname -> exists data, In (FFile fname data) l.
  Proof. intros H; inversion H; eauto. Qed.

  Lemma resolve_assembled e : forall o dn l dir fname up, e = FDir dn l -> ready o l fname ->
    exists s, resolve_dir o e dir fname up = Ok s /\ assembled o dir l fname up s.
  Proof.
    induction e as [n d|dn0 l0 IH] using fent_ind'; intros o dn l dir fname up E Rd; [discriminate E|].
    inversion E; subst dn0 l0. clear E.
    destruct Rd as [l fname data kids Nl Hin [[patch keys] Op] Nk Pc Dj Dd Sub].
    rewrite resolve_dir_eq, (in_find_file l fname data Nl Hin), Op. set (me := dir ++ [fname]).
    assert (key : forall es done m, l = done ++ es -> NoDup (map fst m) ->
      (forall f k w, offers o done f k w -> In (k, RKid (dir ++ [f]) w me) m) ->
      (forall n sub, In (FDir n sub) done -> In n (map fst kids) ->
         exists s, In (n, s) m /\ assembled o (dir ++ [n]) sub (n ++ txt ".wz") (Some me) s) ->
      (forall k w, In (k, w) kids -> (forall f w', ~ offers o done f k w') -> (forall sub, ~ In (FDir k sub) done) ->
         In (k, RKid me w me) m) ->
      (forall k, In k (map fst m) <-> In k (map fst kids) \/ exists f w, offers o done f k w) ->
      exists m', dir_loop o dir me es m = Ok m' /\ NoDup (map fst m') /\
        (forall f k w, offers o l f k w -> In (k, RKid (dir ++ [f]) w me) m') /\
        (forall n sub, In (FDir n sub) l -> In n (map fst kids) ->
           exists s, In (n, s) m' /\ assembled o (dir ++ [n]) sub (n ++ txt ".wz") (Some me) s) /\
        (forall k w, In (k, w) kids -> (forall f w', ~ offers o l f k w') -> (forall sub, ~ In (FDir k sub) l) ->
           In (k, RKid me w me) m') /\
        (forall k, In k (map fst m') -> In k (map fst kids) \/ exists f w, offers o l f k w)).
    { induction es as [|e r IHe]; intros done m Hl Nm A B C D.
      - rewrite app_nil_r in Hl. subst done. exists m. cbn [dir_loop]. split; [reflexivity|]. split; [exact Nm|].
        split; [exact A|]. split; [exact B|]. split; [exact C|]. intros k Hk. now apply D.
      - assert (Hl' : l = (done ++ [e]) ++ r) by now rewrite <- app_assoc.
        assert (Ie : In e l) by (rewrite Hl; apply in_or_app; right; now left).
        assert (Id : incl done l) by (intros y Hy; rewrite Hl; apply in_or_app; now left).
        assert (Id' : incl (done ++ [e]) l) by (intros y Hy; rewrite Hl'; apply in_or_app; now left).
        assert (Fresh : forall y, In y done -> ent_name y <> ent_name e).
        { intros y Hy Ey. rewrite Hl, map_app in Nl. cbn [map] in Nl. apply NoDup_remove_2 in Nl. apply Nl.
          apply in_or_app. left. rewrite <- Ey. now apply in_map. }
        assert (Mono : forall f k w, offers o done f k w -> offers o (done ++ [e]) f k w)
          by (intros f k w; apply offers_incl; intros y Hy; apply in_or_app; now left).
        destruct e as [n piece|n sub].
        + assert (Inv : forall f k w, offers o (done ++ [FFile n piece]) f k w ->
            offers o done f k w \/ (f = n /\ piece_name n /\ exists ks, gives o piece ks /\ In (k, w) ks)).
          { intros f k w (d & ks & H1 & H2 & H3 & H4). apply in_app_or in H1 as [H1|[H1|[]]].
            - left. exists d, ks. auto.
            - right. inversion H1; subst. eauto. }
          assert (NoD : forall nn ss, In (FDir nn ss) (done ++ [FFile n piece]) -> In (FDir nn ss) done).
          { intros nn ss Hd. apply in_app_or in Hd as [Hd|[Hd|[]]]; [exact Hd|discriminate Hd]. }
          assert (skip : (forall k w, ~ offers o (done ++ [FFile n piece]) n k w) ->
            forall f k w, offers o (done ++ [FFile n piece]) f k w <-> offers o done f k w).
          { intros Hno f k w. split; [|apply Mono]. intros H. destruct (Inv _ _ _ H) as [H'|(-> & _)]; [exact H'|].
            now elim (Hno k w). }
          assert (Same : (forall k w, ~ offers o (done ++ [FFile n piece]) n k w) ->
            exists m', dir_loop o dir me r m = Ok m' /\ NoDup (map fst m') /\
        (forall f k w, offers o l f k w -> In (k, RKid (dir ++ [f]) w me) m') /\
        (forall n sub, In (FDir n sub) l -> In n (map fst kids) ->
           exists s, In (n, s) m' /\ assembled o (dir ++ [n]) sub (n ++ txt ".wz") (Some me) s) /\
        (forall k w, In (k, w) kids -> (forall f w', ~ offers o l f k w') -> (forall sub, ~ In (FDir k sub) l) ->
           In (k, RKid me w me) m') /\
        (forall k, In k (map fst m') -> In k (map fst kids) \/ exists f w, offers o l f k w)).
          { intros Hno. specialize (skip Hno). apply (IHe (done ++ [FFile n piece]) m Hl' Nm).
            - intros f k w H. apply A. now apply skip.
            - intros nn ss Hd. apply B. now apply NoD.
            - intros k w Hk H1 H2. apply C; [exact Hk| |].
              + intros f w' H. apply (H1 f w'). now apply skip.
              + intros ss Hd. apply (H2 ss). apply in_or_app. now left.
            - intros k. rewrite D. split; (intros [H|(f & w & H)]; [now left|]); right; exists f, w; now apply skip. }
          cbn [dir_loop]. destruct (is_piece n) eqn:Pn.
          2:{ apply Same. intros k w (d & ks & _ & Hp & _). apply is_piece_spec in Hp. congruence. }
          apply is_piece_spec in Pn. destruct (Pc n piece Ie Pn) as (rr & pk & Opp & [(ks & -> & Nks)|(er & ->)]); rewrite Opp.
          2:{ apply Same. intros k w (d & ks & H1 & _ & [pk' H3] & _). apply in_app_or in H1 as [H1|[H1|[]]].
              - now elim (Fresh _ H1).
              - inversion H1; subst. rewrite Opp in H3. discriminate H3. }
          assert (Gp : gives o piece ks) by now exists pk.
          assert (Off : forall k w, In (k, w) ks -> offers o (done ++ [FFile n piece]) n k w).
          { intros k w Hk. exists piece, ks. split; [apply in_or_app; right; now left|]. auto. }
          assert (Hks : forall k, In k (map fst ks) -> exists w, In (k, w) ks).
          { intros k Hk. apply in_map_iff in Hk as ((k' & w) & Ek & Hk). cbn in Ek. subst. eauto. }
          apply (IHe (done ++ [FFile n piece]) _ Hl' (put_kids_nodup _ _ _ _ Nm)).
          * intros f k w H. destruct (Inv _ _ _ H) as [H'|(-> & _ & ks' & G' & Hk)].
            -- apply put_kids_keep; [exact Nm|exact Nks| |now apply A].
               intros Hk. destruct (Hks k Hk) as [w' Hw']. pose proof (offers_incl o _ l _ _ _ Id' (Off _ _ Hw')) as O1.
               pose proof (offers_incl o _ l _ _ _ Id H') as O2. pose proof (Dj _ _ _ _ _ O1 O2). subst f.
               destruct H' as (d & ks' & H1 & _). now elim (Fresh _ H1).
            -- rewrite (gives_fun _ _ _ _ G' Gp) in Hk. now apply put_kids_new.
          * intros nn ss Hd Hk. destruct (B nn ss (NoD _ _ Hd) Hk) as (s & Hs & As). exists s. split; [|exact As].
            apply put_kids_keep; [exact Nm|exact Nks| |exact Hs]. intros Hkk. destruct (Hks _ Hkk) as [w Hw].
            apply (Dd _ _ _ ss (offers_incl o _ l _ _ _ Id' (Off _ _ Hw))). apply Id. now apply NoD.
          * intros k w Hk H1 H2. apply put_kids_keep; [exact Nm|exact Nks| |].
            -- intros Hkk. destruct (Hks _ Hkk) as [w' Hw']. exact (H1 n w' (Off _ _ Hw')).
            -- apply C; [exact Hk| |].
               ++ intros f w' H. exact (H1 f w' (Mono _ _ _ H)).
               ++ intros ss Hd. apply (H2 ss). apply in_or_app. now left.
          * intros k. rewrite put_kids_names, D. split.
            -- intros [H|[H|(f & w & H)]]; [|now left|right; eauto]. destruct (Hks _ H) as [w Hw]. right. eauto.
            -- intros [H|(f & w & H)]; [right; now left|]. destruct (Inv _ _ _ H) as [H'|(-> & _ & ks' & G' & Hk)].
               ++ right. right. eauto.
               ++ left. rewrite (gives_fun _ _ _ _ G' Gp) in Hk. apply (in_map fst) in Hk. exact Hk.
        + assert (skip : forall f k w, offers o (done ++ [FDir n sub]) f k w <-> offers o done f k w).
          { intros f k w. split; [|apply Mono]. intros (d & ks & H1 & H2). exists d, ks. split; [|exact H2].
            apply in_app_or in H1 as [H1|[H1|[]]]; [exact H1|discriminate H1]. }
          assert (NotOff : forall f w, ~ offers o done f n w).
          { intros f w H. exact (Dd _ _ _ sub (offers_incl o _ l _ _ _ Id H) Ie). }
          cbn [dir_loop]. destruct (kid_at m n) as [v|] eqn:Ka.
          * assert (Kn : In n (map fst kids)).
            { apply kid_at_in in Ka; [|exact Nm]. apply (in_map fst) in Ka. cbn [fst] in Ka.
              apply D in Ka as [Ka|(f & w & H)]; [exact Ka|now elim (NotOff f w)]. }
            destruct (IH (FDir n sub) Ie o n sub (dir ++ [n]) (n ++ txt ".wz") (Some me) eq_refl (Sub n sub Ie Kn)) as (s & Rs & As).
            match goal with |- context [rbind ?x _] => replace x with (Ok s) by (symmetry; exact Rs) end.
            cbn [rbind]. apply (IHe (done ++ [FDir n sub]) _ Hl' (put_kid_nodup _ _ _ Nm)).
            -- intros f k w H. apply skip in H. apply put_kid_keep; [exact Nm| |now apply A].
               intros ->. now elim (NotOff f w).
            -- intros nn ss Hd Hk. apply in_app_or in Hd as [Hd|[Hd|[]]].
               ++ destruct (B nn ss Hd Hk) as (s' & Hs & As'). exists s'. split; [|exact As'].
                  apply put_kid_keep; [exact Nm| |exact Hs]. exact (Fresh _ Hd).
               ++ inversion Hd; subst. exists s. split; [now apply put_kid_new|exact As].
            -- intros k w Hk H1 H2. apply put_kid_keep; [exact Nm| |].
               ++ intros ->. apply (H2 sub). apply in_or_app. right. now left.
               ++ apply C; [exact Hk| |].
                  ** intros f w' H. apply (H1 f w'). now apply skip.
                  ** intros ss Hd. apply (H2 ss). apply in_or_app. now left.
            -- intros k. rewrite put_kid_names, D. split.
               ++ intros [->|[H|(f & w & H)]]; [now left|now left|]. right. exists f, w. now apply skip.
               ++ intros [H|(f & w & H)]; [right; now left|]. right. right. exists f, w. now apply skip.
          * apply (IHe (done ++ [FDir n sub]) m Hl' Nm).
            -- intros f k w H. apply A. now apply skip.
            -- intros nn ss Hd Hk. apply in_app_or in Hd as [Hd|[Hd|[]]]; [now apply B|].
               inversion Hd; subst. exfalso. apply kid_at_none in Ka. apply Ka. apply D. now left.
            -- intros k w Hk H1 H2. apply C; [exact Hk| |].
               ++ intros f w' H. apply (H1 f w'). now apply skip.
               ++ intros ss Hd. apply (H2 ss). apply in_or_app. now left.
            -- intros k. rewrite D. split; (intros [H|(f & w & H)]; [now left|]); right; exists f, w; now apply skip. }
    destruct (key l [] (put_kids me me kids [])) as (m' & L & N & A & B & C & D).
    - reflexivity.
    - apply put_kids_nodup. constructor.
    - intros f k w (d & ks & [] & _).
    - intros n sub [].
    - intros k w Hk _ _. apply put_kids_new; [constructor|exact Nk|exact Hk].
    - intros k. rewrite put_kids_names. cbn [map]. split; [intros [H|[]]; now left|].
      intros [H|(f & w & d & ks & [] & _)]. now left.
    - rewrite L. cbn [rmap]. exists (RFile (stem fname) me up patch keys m'). split; [reflexivity|].
      apply (assembled_dir open_file o dir l fname up data kids patch keys m' (stem fname)); auto. apply stem_spec.
  Qed.

  (** *** The order of the listings. *)
  Lemma same_each_facts l l1 : same_each l l1 ->
    (forall n d, In (FFile n d) l <-> In (FFile n d) l1) /\
    (forall n s, In (FDir n s) l -> exists s', In (FDir n s') l1 /\ shuffled s s') /\
    (forall n s', In (FDir n s') l1 -> exists s, In (FDir n s) l /\ shuffled s s') /\
    map ent_name l = map ent_name l1.
  Proof.
    induction 1 as [|n d r r' _ (F & D & D' & E)|n s s' r r' S _ (F & D & D' & E)]; cbn [map ent_name In].
    - intuition eauto.
    - split; [intros n' d'; rewrite F; intuition congruence|]. split; [|split; [|now rewrite E]].
      + intros n' s [H|H]; [discriminate H|]. destruct (D _ _ H) as (x & Hx & Sx). eauto.
      + intros n' s [H|H]; [discriminate H|]. destruct (D' _ _ H) as (x & Hx & Sx). eauto.
    - split; [intros n' d'; rewrite F; intuition congruence|]. split; [|split; [|now rewrite E]].
      + intros n' x [H|H]; [inversion H; subst; eauto|]. destruct (D _ _ H) as (y & Hy & Sy). eauto.
      + intros n' x [H|H]; [inversion H; subst; eauto|]. destruct (D' _ _ H) as (y & Hy & Sy). eauto.
  Qed.
  Lemma shuffled_facts l l' : shuffled l l' ->
    (forall n d, In (FFile n d) l <-> In (FFile n d) l') /\
    (forall n s, In (FDir n s) l -> exists s', In (FDir n s') l' /\ shuffled s s') /\
    (forall n s', In (FDir n s') l' -> exists s, In (FDir n s) l /\ shuffled s s') /\
    Permutation (map ent_name l) (map ent_name l').
  Proof.
    intros [l0 l1 l0' S P]. destruct (same_each_facts _ _ S) as (F & D & D' & E).
    assert (I : forall x, In x l1 <-> In x l0') by (intros x; split; apply Permutation_in; [exact P|now apply Permutation_sym]).
    split; [intros n d; now rewrite F, I|]. split; [|split].
    - intros n s H. destruct (D _ _ H) as (s' & Hs & Ss). exists s'. now rewrite <- I.
    - intros n s H. apply I in H. now apply D'.
    - rewrite E. now apply Permutation_map.
  Qed.
  Lemma shuffled_offers o l l' f k w : shuffled l l' -> offers o l f k w <-> offers o l' f k w.
  Proof.
    intros S. destruct (shuffled_facts _ _ S) as (F & _).
    split; intros (d & ks & H & R); exists d, ks; (split; [|exact R]); now apply F.
  Qed.
  Lemma shuffled_ready o l fname : ready o l fname -> forall l', shuffled l l' -> ready o l' fname.
  Proof.
    induction 1 as [l fname data kids Nl Hin G Nk Pc Dj Dd Sub IH]. intros l' S.
    destruct (shuffled_facts _ _ S) as (F & D & D' & P).
    apply (ready_dir open_file o l' fname data kids); auto.
    - eapply Permutation_NoDup; eauto.
    - now apply F.
    - intros f d H. apply Pc. now apply F.
    - intros f g k w w' H H'. apply (Dj f g k w w'); now apply (shuffled_offers o l l').
    - intros f k w sub H Hd. destruct (D' _ _ Hd) as (s & Hs & _). apply (Dd f k w s); [|exact Hs].
      now apply (shuffled_offers o l l').
    - intros n sub H Hk. destruct (D' _ _ H) as (s & Hs & Ss). apply (IH n s Hs Hk sub Ss).
  Qed.
  Lemma offered_dec o l k : (exists f w, offers o l f k w) \/ (forall f w, ~ offers o l f k w).
  Proof.
    induction l as [|e r IH]; [right; intros f w (d & ks & [] & _)|].
    destruct IH as [(f & w & H)|IH].
    { left. exists f, w. revert H. apply offers_incl. intros x Hx. now right. }
    assert (tailno : forall f d, In (FFile f d) r -> forall ks w, piece_name f -> gives o d ks -> ~ In (k, w) ks).
    { intros f d H ks w P G Hk. apply (IH f w). exists d, ks. auto. }
    destruct e as [n d|n s].
    - destruct (is_piece n) eqn:Pn.
      + destruct (open_file o d) as [[[ks| | |] pk]|] eqn:Op.
        2-5: right; intros f w (d' & ks & [H|H] & P & [pk' G] & Hk); [inversion H; subst; congruence|now apply (tailno f d' H ks w P (ex_intro _ pk' G))].
        destruct (in_dec (list_eq_dec Z.eq_dec) k (map fst ks)) as [Hk|Hk].
        * left. apply in_map_iff in Hk as ((k' & w) & E & Hk). cbn in E. subst. exists n, w, d, ks.
          split; [now left|]. split; [now apply is_piece_spec|]. split; [now exists pk|exact Hk].
        * right. intros f w (d' & ks' & [H|H] & P & [pk' G] & Hk'); [|now apply (tailno f d' H ks' w P (ex_intro _ pk' G))].
          inversion H; subst. rewrite Op in G. inversion G; subst. apply Hk. apply (in_map fst) in Hk'. exact Hk'.
      + right. intros f w (d' & ks & [H|H] & P & G & Hk); [|now apply (tailno f d' H ks w P G)].
        inversion H; subst. apply is_piece_spec in P. congruence.
    - right. intros f w (d' & ks & [H|H] & P & G & Hk); [discriminate H|now apply (tailno f d' H ks w P G)].
  Qed.
  Lemma dir_dec l k : (exists s, In (FDir k s) l) \/ (forall s, ~ In (FDir k s) l).
  Proof.
    induction l as [|e r IH]; [right; intros s []|]. destruct IH as [(s & H)|IH]; [left; exists s; now right|].
    destruct e as [n d|n s]; [right; intros s [H|H]; [discriminate H|now apply (IH s)]|].
    destruct (list_eq_dec Z.eq_dec n k) as [->|N]; [left; exists s; now left|].
    right. intros x [H|H]; [inversion H; congruence|now apply (IH x)].
  Qed.
  Lemma in_fun {A B} (m : list (A * B)) k v v' : NoDup (map fst m) -> In (k, v) m -> In (k, v') m -> v = v'.
  Proof.
    induction m as [|[k0 v0] r IH]; intros N H H'; [destruct H|]. inversion N as [|? ? Nk Nr]; subst.
    destruct H as [H|H], H' as [H'|H'].
    - congruence.
    - inversion H; subst. exfalso. apply Nk. apply (in_map fst) in H'. exact H'.
    - inversion H'; subst. exfalso. apply Nk. apply (in_map fst) in H. exact H.
    - auto.
  Qed.
  Lemma assembled_same o l fname : ready o l fname -> forall l' dir up s s', shuffled l l' ->
    assembled o dir l fname up s -> assembled o dir l' fname up s' -> same_tree s s'.
  Proof.
    induction 1 as [l fname data kids Nl Hin G Nk Pc Dj Dd Sub IH]. intros l' dir up s s' S A A'.
    destruct (shuffled_facts _ _ S) as (F & D & D' & P).
    inversion A as [d1 l1 f1 u1 data1 kids1 p1 k1 m1 n1 me1 I1 O1 S1 N1 A1 B1 C1 E1]; subst.
    inversion A' as [d2 l2 f2 u2 data2 kids2 p2 k2 m2 n2 me2 I2 O2 S2 N2 A2 B2 C2 E2]; subst.
    assert (data1 = data2).
    { apply F in I2. assert (X : FFile fname data1 = FFile fname data2) by (apply (in_one_name l); auto). now inversion X. }
    subst data2. rewrite O1 in O2. inversion O2; subst kids2 p2 k2.
    assert (data1 = data).
    { assert (X : FFile fname data1 = FFile fname data) by (apply (in_one_name l); auto). now inversion X. }
    subst data1. assert (kids1 = kids) by (eapply gives_fun; [exists (p1, k1); exact O1|exact G]). subst kids1.
    assert (n1 = n2) by (apply stem_of_stem in S1, S2; congruence). subst n2.
    constructor; auto.
    - intros x v Hx.
      destruct (offered_dec o l x) as [(f & w & Of)|NOf].
      { pose proof (A1 _ _ _ Of) as H1. pose proof (in_fun _ _ _ _ N1 Hx H1). subst v.
        exists (RKid (dir ++ [f]) w me1). split; [|constructor]. apply A2. now apply (shuffled_offers o l l'). }
      assert (Hk : In x (map fst kids)).
      { apply (in_map fst) in Hx. apply E1 in Hx as [Hx|(f & w & Of)]; [exact Hx|now elim (NOf f w)]. }
      destruct (dir_dec l x) as [(sub & Hd)|ND].
      + destruct (B1 x sub Hd Hk) as (s & Hs & As). pose proof (in_fun _ _ _ _ N1 Hx Hs). subst v.
        destruct (D _ _ Hd) as (sub' & Hd' & Ss). destruct (B2 x sub' Hd' Hk) as (s' & Hs' & As').
        exists s'. split; [exact Hs'|]. eapply (IH x sub Hd Hk); eauto.
      + apply in_map_iff in Hk as ((x' & w) & E & Hk). cbn in E. subst x'.
        pose proof (C1 x w Hk NOf ND) as H1. pose proof (in_fun _ _ _ _ N1 Hx H1). subst v.
        exists (RKid me1 w me1). split; [|constructor]. apply C2; [exact Hk| |].
        * intros f w' Of. apply (NOf f w'). now apply (shuffled_offers o l l').
        * intros sub Hd. destruct (D' _ _ Hd) as (s0 & Hs0 & _). now apply (ND s0).
    - intros x Hx. apply E2 in Hx.
      destruct (offered_dec o l x) as [(f & w & Of)|NOf].
      { apply A1 in Of. apply (in_map fst) in Of. exact Of. }
      destruct Hx as [Hk|(f & w & Of)]; [|exfalso; apply (NOf f w); now apply (shuffled_offers o l l')].
      destruct (dir_dec l x) as [(sub & Hd)|ND].
      + destruct (B1 x sub Hd Hk) as (s & Hs & As). apply (in_map fst) in Hs. exact Hs.
      + apply in_map_iff in Hk as ((x' & w) & E & Hk). cbn in E. subst x'.
        pose proof (C1 x w Hk NOf ND) as H1. apply (in_map fst) in H1. exact H1.
  Qed.

  (** *** Base.wz. *)
  Lemma package_fun root l e n d s f n' d' s' f' :
    package_at root l e n d s f -> package_at root l e n' d' s' f' -> n = n' /\ d = d' /\ s = s' /\ f = f'.
  Proof.
    intros H H'. destruct H as [n name x S E|n name sub S].
    - inversion H' as [n0 name' x' S' E'|]; subst. apply stem_of_stem in S, S'. subst. repeat split; congruence.
    - inversion H' as [|n0 name' sub' S']; subst. apply stem_of_stem in S, S'. subst. repeat split; congruence.
  Qed.
  Lemma base_step o root l e base m m' r : base_loop open_file o l root base (e :: r) m = Ok m' ->
    (exists s, kid_at m (stem (ent_name e)) <> None /\
       (exists d sub f, package_at root l e (stem (ent_name e)) d sub f /\ resolve_dir o (FDir [] sub) d f (Some base) = Ok s) /\
       base_loop open_file o l root base r (put_kid m (stem (ent_name e)) s) = Ok m') \/
    base_loop open_file o l root base r m = Ok m'.
  Proof.
    cbn [base_loop]. intros L. destruct (kid_at m (stem (ent_name e))) eqn:Ka; [|now right].
    destruct e as [n d|n sub]; cbn [ent_name] in *.
    - destruct (text_eqb (extension n) (txt "wz")) eqn:X; [|now right].
      apply rbind_ok in L as (s & Rs & L). left. exists s. split; [discriminate|]. split; [|exact L].
      exists root, l, n. split; [|exact Rs]. apply package_file; [apply stem_spec|].
      apply text_eqb_eq in X. unfold extension in X. unfold stem. destruct (cut_dot n) as [[a b]|] eqn:C; [|discriminate X].
      apply cut_dot_some in C as [-> _]. destruct a; [discriminate X|]. subst b. reflexivity.
    - apply rbind_ok in L as (s & Rs & L). left. exists s. split; [discriminate|]. split; [|exact L].
      exists (root ++ [n]), sub, (n ++ txt ".wz"). split; [apply package_dir, stem_spec|exact Rs].
  Qed.
  Lemma package_ext n name : stem_of n name -> n = name ++ txt ".wz" -> extension n = txt "wz".
  Proof.
    intros S E. apply stem_of_stem in S. unfold extension.
    assert (C : cut_dot n = Some (name, txt "wz")).
    { apply cut_dot_some. split; [exact E|]. cbn. intros [H|[H|[]]]; discriminate H. }
    rewrite C. destruct name; [|reflexivity]. exfalso. cbn in E. subst n. vm_compute in S. discriminate S.
  Qed.
  Lemma base_assembled o root l base : forall es done m, l = done ++ es -> NoDup (map fst m) ->
    forall listed kids,
    (forall e n d sub f, In e l -> package_at root l e n d sub f -> In n listed -> ready o sub f) ->
    (forall e e' n d sub f d' sub' f', In e l -> In e' l -> package_at root l e n d sub f -> package_at root l e' n d' sub' f' ->
       In n listed -> e = e') ->
    NoDup l ->
    (forall k, In k (map fst m) <-> In k listed) ->
    (forall e n d sub f, In e done -> package_at root l e n d sub f -> In n listed ->
       exists s, In (n, s) m /\ assembled o d sub f (Some base) s) ->
    (forall k v, In (k, v) kids -> (forall e d sub f, In e done -> ~ package_at root l e k d sub f) -> In (k, v) m) ->
    exists m', base_loop open_file o l root base es m = Ok m' /\ NoDup (map fst m') /\
      (forall k, In k (map fst m') <-> In k listed) /\
      (forall e n d sub f, In e l -> package_at root l e n d sub f -> In n listed ->
         exists s, In (n, s) m' /\ assembled o d sub f (Some base) s) /\
      (forall k v, In (k, v) kids -> (forall e d sub f, In e l -> ~ package_at root l e k d sub f) -> In (k, v) m').
  Proof.
    induction es as [|e r IHe]; intros done m Hl Nm listed kids Rd Un Nl D A B.
    { rewrite app_nil_r in Hl. subst done. exists m. cbn [base_loop]. auto. }
    assert (Hl' : l = (done ++ [e]) ++ r) by now rewrite <- app_assoc.
    assert (Ie : In e l) by (rewrite Hl; apply in_or_app; right; now left).
    assert (Id : incl done l) by (intros y Hy; rewrite Hl; apply in_or_app; now left).
    assert (Fresh : ~ In e done).
    { intros H. rewrite Hl in Nl. apply NoDup_remove_2 in Nl. apply Nl. apply in_or_app. now left. }
    assert (Skip : (forall n d sub f, package_at root l e n d sub f -> ~ In n listed) -> exists m',
      base_loop open_file o l root base r m = Ok m' /\ NoDup (map fst m') /\
      (forall k, In k (map fst m') <-> In k listed) /\
      (forall e n d sub f, In e l -> package_at root l e n d sub f -> In n listed ->
         exists s, In (n, s) m' /\ assembled o d sub f (Some base) s) /\
      (forall k v, In (k, v) kids -> (forall e d sub f, In e l -> ~ package_at root l e k d sub f) -> In (k, v) m')).
    { intros No. apply (IHe (done ++ [e]) m Hl' Nm listed kids); auto.
      - intros e' n d sub f H P L. apply in_app_or in H as [H|[H|[]]]; [eauto|]. subst e'. now elim (No _ _ _ _ P).
      - intros k v H Np. apply (B k v H). intros e' d sub f H' . apply Np. apply in_or_app. now left. }
    assert (Take : forall d sub f, package_at root l e (stem (ent_name e)) d sub f -> In (stem (ent_name e)) listed ->
      exists s, resolve_dir o (FDir [] sub) d f (Some base) = Ok s /\ exists m',
      base_loop open_file o l root base r (put_kid m (stem (ent_name e)) s) = Ok m' /\ NoDup (map fst m') /\
      (forall k, In k (map fst m') <-> In k listed) /\
      (forall e n d sub f, In e l -> package_at root l e n d sub f -> In n listed ->
         exists s, In (n, s) m' /\ assembled o d sub f (Some base) s) /\
      (forall k v, In (k, v) kids -> (forall e d sub f, In e l -> ~ package_at root l e k d sub f) -> In (k, v) m')).
    { intros d sub f P L. destruct (resolve_assembled (FDir [] sub) o [] sub d f (Some base) eq_refl (Rd e _ d sub f Ie P L)) as (s & Rs & As).
      exists s. split; [exact Rs|]. apply (IHe (done ++ [e]) _ Hl' (put_kid_nodup _ _ _ Nm) listed kids); auto.
      - intros k. rewrite put_kid_names, D. split; [intros [->|H]; auto|now right].
      - intros e' n d' sub' f' H P' L'. apply in_app_or in H as [H|[H|[]]].
        + destruct (A _ _ _ _ _ H P' L') as (s' & Hs & As'). exists s'. split; [|exact As'].
          apply put_kid_keep; [exact Nm| |exact Hs]. intros ->.
          pose proof (Un e' e _ _ _ _ _ _ _ (Id _ H) Ie P' P L'). subst e'. auto.
        + subst e'. destruct (package_fun _ _ _ _ _ _ _ _ _ _ _ P P') as (<- & <- & <- & <-). exists s.
          split; [now apply put_kid_new|exact As].
      - intros k v H Np. apply put_kid_keep; [exact Nm| |].
        + intros ->. apply (Np e d sub f); [apply in_or_app; right; now left|exact P].
        + apply (B k v H). intros e' d' sub' f' H'. apply Np. apply in_or_app. now left. }
    cbn [base_loop]. destruct (kid_at m (stem (ent_name e))) as [v|] eqn:Ka.
    2:{ apply Skip. intros n d sub f P L. apply kid_at_none in Ka. apply Ka. apply D.
        destruct P as [n0 name x S E|n0 name x S]; cbn [ent_name]; apply stem_of_stem in S; now subst name. }
    assert (Lk : In (stem (ent_name e)) listed).
    { apply kid_at_in in Ka; [|exact Nm]. apply D. apply (in_map fst) in Ka. exact Ka. }
    destruct e as [n x|n sub]; cbn [ent_name] in *.
    - destruct (text_eqb (extension n) (txt "wz")) eqn:X.
      + assert (P : package_at root l (FFile n x) (stem n) root l n).
        { apply package_file; [apply stem_spec|]. apply text_eqb_eq in X. unfold extension in X. unfold stem.
          destruct (cut_dot n) as [[a b]|] eqn:C; [|discriminate X]. apply cut_dot_some in C as [-> _].
          destruct a; [discriminate X|]. subst b. reflexivity. }
        destruct (Take root l n P Lk) as (s & Rs & T).
        match goal with |- context [rbind ?x _] => replace x with (Ok s) by (symmetry; exact Rs) end. exact T.
      + apply Skip. intros n0 d sub f P. inversion P as [n1 name y Sn En|]. exfalso.
        rewrite (package_ext n n0), text_eqb_refl in X; [discriminate X|congruence|congruence].
    - destruct (Take (root ++ [n]) sub (n ++ txt ".wz") (package_dir _ _ _ _ _ (stem_spec n)) Lk) as (s & Rs & T).
      match goal with |- context [rbind ?x _] => replace x with (Ok s) by (symmetry; exact Rs) end. exact T.
  Qed.
End Resolve.
