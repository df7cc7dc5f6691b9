(** Installations described from outside: names of files, what lies where, and the tree that should come out,
    without an order of visiting. *)
From Coq Require Import ZArith List Bool Permutation.
From Coq Require String Ascii.
From Verif.Model Require Import Base Image Resolver.
Import String.StringSyntax.
Import ListNotations.
Open Scope Z_scope.

(** The name without its last extension.  A dot at the start does not begin an extension. *)
Definition stem_of (n s : text) : Prop :=
  (s <> [] /\ exists e, ~ In 46 e /\ n = s ++ 46 :: e) \/
  (n = s /\ (~ In 46 n \/ exists e, ~ In 46 e /\ n = 46 :: e)).
(** A number written with decimal digits. *)
Definition digits (t : text) : Prop := t <> [] /\ Forall (fun c => 48 <= c <= 57) t.
Definition dec (t : text) : Z := fold_left (fun a c => 10 * a + (c - 48)) t 0.
(** A piece of a series: the stem ends in an underscore and a number that fits 16 bits. *)
Definition piece_name (n : text) : Prop :=
  exists a sign ds, stem_of n (a ++ 95 :: sign ++ ds) /\ (sign = [] \/ sign = [43]) /\ digits ds /\ dec ds < 2 ^ 16.

(** The file with this content lies there. *)
Inductive lies : list fent -> loc -> list Z -> Prop :=
| lies_here l n d : In (FFile n d) l -> lies l [n] d
| lies_in l n sub p d : In (FDir n sub) l -> lies sub p d -> lies l (n :: p) d.

(** The same directories and files, listed in another order at any level. *)
Inductive shuffled : list fent -> list fent -> Prop :=
| shuf l l1 l' : same_each l l1 -> Permutation l1 l' -> shuffled l l'
with same_each : list fent -> list fent -> Prop :=
| se_nil : same_each [] []
| se_file n d r r' : same_each r r' -> same_each (FFile n d :: r) (FFile n d :: r')
| se_dir n s s' r r' : shuffled s s' -> same_each r r' -> same_each (FDir n s :: r) (FDir n s' :: r').

(** The same tree but for the order of children. *)
Inductive same_tree : rnode -> rnode -> Prop :=
| same_kid f w u : same_tree (RKid f w u) (RKid f w u)
| same_file n a u p k kids kids' : NoDup (map fst kids) -> NoDup (map fst kids') ->
    (forall x v, In (x, v) kids -> exists v', In (x, v') kids' /\ same_tree v v') ->
    (forall x, In x (map fst kids') -> In x (map fst kids)) ->
    same_tree (RFile n a u p k kids) (RFile n a u p k kids').

(** The node a node's parent pointer leads to. *)
Definition up_of (r : rnode) : option loc := match r with RFile _ _ u _ _ _ => u | RKid _ _ u => Some u end.
(** From every node below, the parent pointer leads to the node it is a child of. *)
Inductive linked : rnode -> Prop :=
| linked_kid f w u : linked (RKid f w u)
| linked_file n a u p k kids : (forall x v, In (x, v) kids -> up_of v = Some a /\ linked v) ->
    linked (RFile n a u p k kids).

Section Open.
  Variable open_file : opts -> list Z -> option (res (list (text * Z)) * (Z * Z)).
  Variable o : opts.

  (** The file can be opened and lists these nodes. *)
  Definition gives (data : list Z) (kids : list (text * Z)) : Prop :=
    exists pk, open_file o data = Some (Ok kids, pk).
  (** The piece [f] of the series in this directory has a node called [k]. *)
  Definition offers (l : list fent) (f k : text) (w : Z) : Prop :=
    exists d ks, In (FFile f d) l /\ piece_name f /\ gives d ks /\ In (k, w) ks.

  (** Everything needed is there and nothing is there twice. *)
  Inductive ready : list fent -> text -> Prop :=
  | ready_dir l fname data kids :
      NoDup (map ent_name l) -> In (FFile fname data) l -> gives data kids -> NoDup (map fst kids) ->
      (forall f d, In (FFile f d) l -> piece_name f ->
         exists r pk, open_file o d = Some (r, pk) /\
           ((exists ks, r = Ok ks /\ NoDup (map fst ks)) \/ (exists e, r = Err e))) ->
      (forall f g k w w', offers l f k w -> offers l g k w' -> f = g) ->
      (forall f k w sub, offers l f k w -> ~ In (FDir k sub) l) ->
      (forall n sub, In (FDir n sub) l -> In n (map fst kids) -> ready sub (n ++ txt ".wz")) ->
      ready l fname.

  (** The tree for the file [fname] in the directory [l] at [dir]: what the pieces of the series have, the
      packages of the subdirectories it lists, and what else it has itself. *)
  Inductive assembled : loc -> list fent -> text -> option loc -> rnode -> Prop :=
  | assembled_dir dir l fname up data kids patch keys m name :
      let me := dir ++ [fname] in
      In (FFile fname data) l -> open_file o data = Some (Ok kids, (patch, keys)) ->
      stem_of fname name -> NoDup (map fst m) ->
      (forall f k w, offers l f k w -> In (k, RKid (dir ++ [f]) w me) m) ->
      (forall n sub, In (FDir n sub) l -> In n (map fst kids) ->
         exists s, In (n, s) m /\ assembled (dir ++ [n]) sub (n ++ txt ".wz") (Some me) s) ->
      (forall k w, In (k, w) kids -> (forall f w', ~ offers l f k w') -> (forall sub, ~ In (FDir k sub) l) ->
         In (k, RKid me w me) m) ->
      (forall k, In k (map fst m) -> In k (map fst kids) \/ exists f w, offers l f k w) ->
      assembled dir l fname up (RFile name me up patch keys m).

  (** Every node of the tree is a file that lies in the installation, or was read from one under its own name. *)
  Inductive from_disk (fs : list fent) : text -> rnode -> Prop :=
  | disk_kid x from w u data kids : lies fs from data -> gives data kids -> In (x, w) kids ->
      from_disk fs x (RKid from w u)
  | disk_file x n a u p k kids data own : lies fs a data -> open_file o data = Some (Ok own, (p, k)) ->
      (forall y v, In (y, v) kids -> from_disk fs y v) ->
      from_disk fs x (RFile n a u p k kids).
End Open.

(** Where the package for an entry of the installation directory is looked for. *)
Inductive package_at (root : loc) (l : list fent) : fent -> text -> loc -> list fent -> text -> Prop :=
| package_file n name d : stem_of n name -> n = name ++ txt ".wz" ->
    package_at root l (FFile n d) name root l n
| package_dir n name sub : stem_of n name -> package_at root l (FDir n sub) name (root ++ [n]) sub (n ++ txt ".wz").
