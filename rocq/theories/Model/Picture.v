(** property/png.rs: the picture of a canvas, through [_inlink] and [_outlink]. *)
From Verif.Model Require Import Base Utf Reader Image Node.
From Coq Require String Ascii.
Import String.StringSyntax.

Section Picture.
  (** See [External] in Node.v (node.rs:180-209). *)
  Variable load : heap -> id -> id -> option (heap * list (text * id) * list id).
  (** What pictures are ([DynamicImage], png.rs:54). *)
  Variable picture : Type.
  (** An object that is a canvas, with what [extract_png] gives for it (png.rs:57,76; modelled in Png.v). *)
  Variable pixels : Z -> option (res picture).
  (** An object that is a string, with its text if [get_string] succeeds (string.rs:160-164; node_cast.rs:94-100). *)
  Variable string_of : Z -> option text.

  (** [resolve_string_from_node(..).ok()] (string.rs:169-175): [try_as_string] takes strings and UOLs. *)
  Definition node_text (h : heap) (i : id) : option text :=
    match h i with
    | Some c => match nd_kind c with KUol t => t | KOther w => string_of w | _ => None end
    | None => None
    end.
  (** [.at(name).and_then(..)] (png.rs:58-60,67-69). *)
  Definition link_text (h : heap) (i : id) (name : text) : option text :=
    match node_at h i name with Some k => node_text h k | None => None end.

  (** The [try_fold] of [at_path_parsed] (node.rs:439-443) while other locks are held: [lk] are write-locked and
      [rd] are read-locked by the callers; write-locking one of them is a deadlock, written [Panic].  Errors become
      [None] (node_util.rs:24) and leave the tree as far as it was read. *)
  Fixpoint forced_fold (lk rd : list id) (h : heap) (n : id) (l : list text) : res (heap * option id) :=
    match l with
    | [] => Ok (h, Some n)
    | name :: r =>
      if held n lk || held n rd then Panic
      else match parse load h lk n n with
           | Ok h' => match node_at h' n name with
                      | Some m => forced_fold lk rd h' m r
                      | None => Ok (h', None)
                      end
           | Err _ => Ok (h, None)
           | Panic => Panic
           | OutOfFuel => OutOfFuel
           end
    end.
  (** resolve_outlink with [force_parse] on (node_util.rs:20-25): the base file stays write-locked. *)
  Definition forced_outlink (fuel : nat) (rd : list id) (h : heap) (path : text) (i : id) : res (heap * option id) :=
    rbind (get_base_wz_file fuel h i) (fun o =>
      match o with
      | None => Ok (h, None)
      | Some base =>
        if held base rd then Panic
        else match split_slash path with
             | [] => Panic
             | first :: rest => match node_at h base first with
                                | Some n => forced_fold [base] rd h n rest
                                | None => Ok (h, None)
                                end
             end
      end).

  (** get_image (png.rs:55-81), with the tree it leaves; after an error that is left out.  [rd] are the canvases the
      callers keep read-locked.  [EOther 70] is [NotPngProperty]. *)
  Fixpoint get_image (fuel : nat) (rd : list id) (h : heap) (i : id) : res (heap * picture) :=
    match fuel with
    | O => OutOfFuel
    | S f =>
      match h i with
      | None => Panic
      | Some c =>
        match (match nd_kind c with KOther w => pixels w | _ => None end) with
        | None => Err (EOther 70)
        | Some own =>
          rbind (match link_text h i (txt "_inlink") with
                 | Some p => resolve_inlink f h p i
                 | None => Ok None
                 end) (fun a =>
          match a with
          | Some t => get_image f (i :: rd) h t
          | None =>
            rbind (match link_text h i (txt "_outlink") with
                   | Some p => forced_outlink f (i :: rd) h p i
                   | None => Ok (h, None)
                   end) (fun b =>
            match snd b with
            | Some t => get_image f (i :: rd) (fst b) t
            | None => rmap (fun x => (fst b, x)) own
            end)
          end)
        end
      end
    end.
End Picture.
