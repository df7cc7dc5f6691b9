(** util/version/pkg1.rs and the version scan of file.rs. *)
From Verif.Model Require Import Base Header.

(** [i32::to_string] (Rust std, pkg1.rs:20) for a non-negative number: decimal
    digits as char codes.  [fuel] bounds the number of digits; ten digits are
    enough for an i32. *)
Fixpoint digits_go (fuel : nat) (v : Z) (acc : text) : text :=
  match fuel with
  | O => acc
  | S k => let acc := (48 + v mod 10) :: acc in
           if v / 10 =? 0 then acc else digits_go k (v / 10) acc
  end.

(** [i32::to_string] (Rust std, pkg1.rs:20). *)
Definition to_string (v : Z) : text :=
  if v <? 0 then 45 :: digits_go 10 (- v) [] else digits_go 10 v [].

(** pkg1.rs:17-27 (calculate_version_hash); digits have no upper case. *)
Definition version_hash (v : Z) : Z :=
  fold_left (fun h c => wrap 32 (wrap 32 (wrap 32 (h * 32) + c) + 1)) (to_string v) 0.

(** pkg1.rs:29-46 (check_and_get_version_hash).  [enc == encver as u32]. *)
Definition check_version (encver cur : Z) : Z :=
  let h := version_hash cur in
  if encver =? cur then h
  else
    let enc :=
      Z.lxor (Z.lxor (Z.lxor (Z.lxor 0xff
        (Z.land (Z.shiftr h 24) 0xff)) (Z.land (Z.shiftr h 16) 0xff))
        (Z.land (Z.shiftr h 8) 0xff)) (Z.land h 0xff) in
    if enc =? wrap 32 encver then h else 0.

(** pkg1.rs:49-63 (Iterator::next), iterated; [n] steps. *)
Fixpoint version_items (n : nat) (encver cur maxv : Z) : list (Z * Z) :=
  match n with
  | O => []
  | S k => if maxv <? cur then []
           else (cur, check_version encver cur) :: version_items k encver (cur + 1) maxv
  end.

(** The whole iteration of pkg1.rs:49-63 from [cur] to [maxv]. *)
Definition version_scan (encver cur maxv : Z) : list (Z * Z) :=
  version_items (Z.to_nat (maxv - cur + 1)) encver cur maxv.

(** file.rs:331: candidates with hash 0 are rejected before anything is read. *)
Definition usable (l : list (Z * Z)) : list (Z * Z) :=
  filter (fun x => negb (snd x =? 0)) l.

(** file.rs:14 (WZ_VERSION_HEADER_64BIT_START). *)
Definition V64 : Z := 770.

(** file.rs:152-200: the candidate versions and hashes tried for a classic
    package, given the version field of the header and the version requested by
    the user ([None] or -1 = guess; file.rs:155, 107). *)
Definition pkg1_candidates (encver : option Z) (patch : option Z) : list (Z * Z) :=
  let e := match encver with Some x => x | None => V64 end in
  match patch with
  | Some v =>
    if v =? -1 then
      match encver with
      | Some _ => usable (version_scan e 1 2000)
      | None => usable (version_scan e V64 (V64 + 10))
      end
    else usable [(v, check_version e v)]
  | None =>
    match encver with
    | Some _ => usable (version_scan e 1 2000)
    | None => usable (version_scan e V64 (V64 + 10))
    end
  end.
