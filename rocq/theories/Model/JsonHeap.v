(** node.rs: JSON of the nodes as they are linked together, which after
    resolving UOLs need not be a tree. *)
From Verif.Model Require Import Base Utf Reader Image Node Json.
From Coq Require String Ascii.
Import String.StringSyntax.

Section Heap.
  (** The object of each node (node.rs:38), as far as the JSON code looks at it. *)
  Variable thing : id -> jobj.

  (** The loop over [self.children.iter()] (node.rs:588-591, 613-616). *)
  Fixpoint heap_loop (rec : id -> res json) (l : list (text * id)) (m : list (text * json))
      : res (list (text * json)) :=
    match l with
    | [] => Ok m
    | (k, j) :: r => rbind (rec j) (fun v => heap_loop rec r (jinsert m k v))
    end.

  (** to_simple_json (node.rs:550-593) following the [Arc]s; read locks do not exclude each other. *)
  Fixpoint heap_simple_json (fuel : nat) (h : heap) (i : id) : res json :=
    match fuel with
    | O => OutOfFuel
    | S f =>
      match h i with
      | None => Panic
      | Some c =>
        match nd_slots c with
        | [] => leaf_json (thing i)
        | slots => rmap VObj (heap_loop (heap_simple_json f h) slots (own_fields (thing i)))
        end
      end
    end.

  (** to_json (node.rs:544-546,605-618) following the [Arc]s. *)
  Fixpoint heap_json (fuel : nat) (h : heap) (i : id) : res json :=
    match fuel with
    | O => OutOfFuel
    | S f =>
      match h i with
      | None => Panic
      | Some c =>
        rbind (obj_fields (thing i)) (fun fs =>
        rmap (fun cs => jobject ((txt "name", VText (nd_name c)) :: fs ++ [(txt "children", VObj cs)]))
          (heap_loop (heap_json f h) (nd_slots c) []))
      end
    end.
End Heap.
