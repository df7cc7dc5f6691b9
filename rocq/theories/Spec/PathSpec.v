(** Paths through a parsed tree. *)
From Coq Require Import ZArith List Bool.
From Verif.Model Require Import Base Reader Image.

(** Components joined by slashes. *)
Fixpoint joined (comps : list text) : text :=
  match comps with
  | [] => []
  | [c] => c
  | c :: r => c ++ 47 :: joined r
  end.
(** A path with components that can be told apart: no slash inside, not the empty path. *)
Definition path_of (comps : list text) : Prop :=
  comps <> [] /\ comps <> [[]] /\ Forall (fun c => ~ In 47 c) comps.

(** The last entry of that name, which is what a map filled from the list holds. *)
Definition holds (kids : list (text * node)) (name : text) (n : node) : Prop :=
  exists pre post, kids = pre ++ (name, n) :: post /\ ~ In name (map fst post).

(** Only digits. *)
Definition numeral (t : text) : Prop := t <> [] /\ Forall (fun c => 48 <= c <= 57) t.

(** A list without repeated names and without null entries called by a number. *)
Definition clean (kids : list (text * node)) : Prop :=
  NoDup (map fst kids) /\ forall k, In (k, Node ONull []) kids -> ~ numeral k.

(** [n] is found by following the components, passing through sub-properties only. *)
Inductive follows : list (text * node) -> list text -> node -> Prop :=
| follows_last kids c n : clean kids -> In (c, n) kids -> follows kids [c] n
| follows_sub kids c sub rest n : clean kids -> In (c, Node OSub sub) kids ->
    follows sub rest n -> follows kids (c :: rest) n.

(** Everything up to the last component is found; the last is missing. *)
Inductive lacks : list (text * node) -> list text -> Prop :=
| lacks_last kids c : clean kids -> ~ In c (map fst kids) -> lacks kids [c]
| lacks_sub kids c sub rest : clean kids -> In (c, Node OSub sub) kids ->
    lacks sub rest -> lacks kids (c :: rest).
