(** util/version/pkg2.rs and util/profile.rs. *)
From Verif.Model Require Import Base Keys Offset.

(** pkg2.rs:7-15 (keys). *)
Definition VERIFY_KEY : Z := 0x1A2B3C4D.
(** pkg2.rs:10. *)
Definition VERIFY_KEY_V4 : Z := 0x6D4C3B2A.
(** pkg2.rs:12. *)
Definition VERIFY_KEY_V5 : Z := 0x2A2C818B.
(** pkg2.rs:14. *)
Definition VERIFY_KEY_V6 : Z := 0xABCDEF0123456789.

(** pkg2.rs:75-78 (Pkg2VersionGenV1::verify_hash). *)
Definition verify_v1 (h1 h2 t : Z) : bool := Z.lxor (rotl32 h1 7) t =? h2.
(** pkg2.rs:79-81. *)
Definition calc_v1 (h1 h2 : Z) : list Z := [Z.lxor (rotl32 h1 7) h2].

(** pkg2.rs:101-105 (Pkg2VersionGenV2::verify_hash). *)
Definition verify_v2 (h1 h2 t : Z) : bool :=
  let base := Z.lxor h1 (wrap 32 (t + VERIFY_KEY)) in
  Z.lxor (rotl32 base (Z.land t 0x1f)) t =? h2.

(** pkg2.rs:150-157 (Pkg2VersionGenV3::verify_hash). *)
Definition verify_v3 (h1 h2 t : Z) : bool :=
  let base := Z.lxor h1 (wrap 32 (t + VERIFY_KEY)) in
  let amount := wrap 32 (Z.land t 0xf + Z.land h1 0xf) in
  not32 (Z.lxor (Z.lxor (rotl32 base amount) t) h1) =? h2.

(** The shared left side of pkg2.rs:201-213 and 237-249. *)
Definition lhs_v45 (h1 t : Z) : Z :=
  let mix_base := Z.lxor h1 t in
  let mixed := Z.lxor (mix_kmst1199 (Z.lxor mix_base VERIFY_KEY_V4)) 0x91E10DA5 in
  let base := Z.lxor h1 (wrap 32 (wrap 32 (wrap 16 mixed + t) + VERIFY_KEY)) in
  let amount := wrap 32 (Z.land (Z.lxor mixed t) 0xF + Z.land h1 0xF) in
  Z.lxor (rotl32 base amount) (wrap 32 (mix_base + mixed)).

(** pkg2.rs:201-214 (Pkg2VersionGenV4::verify_hash). *)
Definition verify_v4 (h1 h2 t : Z) : bool := lhs_v45 h1 t =? not32 h2.
(** pkg2.rs:237-250 (Pkg2VersionGenV5::verify_hash). *)
Definition verify_v5 (h1 h2 t : Z) : bool := Z.lxor (lhs_v45 h1 t) VERIFY_KEY_V5 =? h2.

(** pkg2.rs:275-277 (Pkg2VersionGenV6::verify_hash). *)
Definition verify_v6 (h1 h2 t : Z) : bool := t =? Z.lxor (Z.lxor h1 h2) VERIFY_KEY_V6.
(** pkg2.rs:279-281. *)
Definition calc_v6 (h1 h2 : Z) : list Z := [Z.lxor (Z.lxor h1 h2) VERIFY_KEY_V6].

(** [x[i] = v] on an array (pkg2.rs:426-427); an index outside never occurs. *)
Definition set_nth (l : list Z) (i : nat) (v : Z) : list Z :=
  firstn i l ++ v :: skipn (S i) l.

(** pkg2.rs:296-308: the mutable part of [HashGenInfo] (results in push order). *)
Record bt := mkBt { bt_carries : list Z; bt_lhs : list Z; bt_results : list Z }.

(** pkg2.rs:404-429: the loop body of [backtrack] for one bit value; [rec] is the
    recursive call on [bit_idx + 1]. *)
Definition bt_step (rec : Z -> bt -> bt) (h1 s low_len low target : Z)
    (idx : Z) (v : Z) (st : bt) (vb : Z) : bt :=
  let bit x i := Z.land (Z.shiftr x i) 1 in
  let prev := Z.land (wrap 32 (wrap 32 (idx - s) + 32)) 0x1f in
  if (prev <? idx) && negb (Z.lxor vb (bit target idx) =? nth (Z.to_nat prev) (bt_lhs st) 0)
  then st
  else
    let sum := vb + bit VERIFY_KEY idx + nth (Z.to_nat idx) (bt_carries st) 0 in
    let cur := Z.land (Z.lxor sum (Z.shiftr h1 idx)) 1 in
    let fut := Z.land (wrap 32 (idx + s)) 0x1f in
    let reject :=
      if fut <=? idx then negb (cur =? Z.lxor (bit v fut) (bit target fut))
      else if fut <? low_len then negb (cur =? Z.lxor (bit low fut) (bit target fut))
      else false in
    if reject then st
    else
      rec (Z.lor v (wrap 32 (Z.shiftl vb idx)))
          (mkBt (set_nth (bt_carries st) (S (Z.to_nat idx)) (Z.shiftr sum 1))
                (set_nth (bt_lhs st) (Z.to_nat idx) cur)
                (bt_results st)).

(** pkg2.rs:376-431 (backtrack); [n = 32 - bit_idx].  The bit values tried are
    the forced low bit, or 0 then 1. *)
Fixpoint backtrack (validator : Z -> Z -> Z -> bool) (h1 h2 s low_len low target : Z)
    (n : nat) (v : Z) (st : bt) : bt :=
  match n with
  | O => if validator h1 h2 v
         then mkBt (bt_carries st) (bt_lhs st) (bt_results st ++ [v]) else st
  | S k =>
    let idx := 32 - Z.of_nat n in
    let rec := backtrack validator h1 h2 s low_len low target k in
    let bits := if idx <? low_len then [Z.land (Z.shiftr low idx) 1] else [0; 1] in
    fold_left (bt_step rec h1 s low_len low target idx v) bits st
  end.

(** The loop over [s_candidate] of pkg2.rs:121-127 / 171-178: arrays are
    cleared, results are kept. *)
Definition bt_runs (validator : Z -> Z -> Z -> bool) (h1 h2 low_len target : Z)
    (s_of : Z -> Z) (cands : list nat) : list Z :=
  fold_left (fun results c =>
    bt_results (backtrack validator h1 h2 (s_of (Z.of_nat c)) low_len (Z.of_nat c) target
                          32 0 (mkBt (repeat 0 33) (repeat 0 32) results)))
    cands [].

(** pkg2.rs:106-130 (Pkg2VersionGenV2::calc_hash). *)
Definition calc_v2 (h1 h2 : Z) : list Z :=
  bt_runs verify_v2 h1 h2 5 h2 (fun c => c) (seq 0 32).

(** pkg2.rs:158-181 (Pkg2VersionGenV3::calc_hash). *)
Definition calc_v3 (h1 h2 : Z) : list Z :=
  bt_runs verify_v3 h1 h2 4 (Z.lxor (not32 h2) h1)
          (fun c => wrap 32 (c + Z.land h1 0xf)) (seq 0 16).

(** Half-open range of u32 values (std ranges; pkg2.rs:440,445). *)
Definition zrange (a b : Z) : list Z := map (fun i => a + Z.of_nat i) (seq 0 (Z.to_nat (b - a))).

(** pkg2.rs:433-448 (brute_force_hash): the range [0..u32::MAX] excludes the
    last value; rayon's [filter/collect] keeps the order. *)
Definition brute_force (h1 h2 : Z) (verifier : Z -> Z -> Z -> bool) : list Z :=
  filter (verifier h1 h2) (zrange 0 (2 ^ 32 - 1)).

(** pkg2.rs:215-217. *)
Definition calc_v4 (h1 h2 : Z) : list Z := brute_force h1 h2 verify_v4.
(** pkg2.rs:251-253. *)
Definition calc_v5 (h1 h2 : Z) : list Z := brute_force h1 h2 verify_v5.

(** pkg2.rs:325-372 (VersionGen): generators are popped from the back (V3, V2,
    V1); the state is the current iterator and the generators left. *)
Record vgen := mkVgen { vg_cur : option (list Z); vg_gens : list (list Z) }.

(** pkg2.rs:333-346 (VersionGen::new), generators given by what they yield, next to be popped first. *)
Definition vgen_new (h1 h2 : Z) : vgen :=
  mkVgen None [calc_v3 h1 h2; calc_v2 h1 h2; calc_v1 h1 h2].

(** pkg2.rs:351-372 (Iterator::next). *)
Definition vgen_next (g : vgen) : option Z * vgen :=
  let pop gens :=
    match gens with
    | [] => (None, mkVgen None [])
    | it :: rest =>
      match it with
      | [] => (None, mkVgen (Some []) rest)
      | x :: it' => (Some x, mkVgen (Some it') rest)
      end
    end in
  match vg_cur g with
  | Some (x :: it) => (Some x, mkVgen (Some it) (vg_gens g))
  | _ => pop (vg_gens g)
  end.

(** A [for] loop over the generator: items up to the first [None]
    (pkg2.rs:351-372 under Rust's loop); [n] bounds the number of items. *)
Fixpoint vgen_loop (n : nat) (g : vgen) : list Z :=
  match n with
  | O => []
  | S k => match vgen_next g with
           | (Some x, g') => x :: vgen_loop k g'
           | (None, _) => []
           end
  end.

(** util/profile.rs:8-18 (WzProfileVersion without Pkg1). *)
Inductive prof := P1202 | P1201 | P1200 | P1199 | P1198 | P1197 | P1196.

(** util/profile.rs:67-112: order in which the profiles are tried. *)
Definition all_profiles : list prof := [P1202; P1201; P1200; P1199; P1198; P1197; P1196].

(** util/profile.rs:67-112, field [offset_version]. *)
Definition prof_offset (p : prof) : offv :=
  match p with
  | P1202 => OPkg264
  | P1201 | P1200 | P1199 => OPkg2V3
  | P1198 | P1197 => OPkg2V2
  | P1196 => OPkg2V1
  end.

(** util/profile.rs:45-47 (should_be_pkg2_64). *)
Definition prof_64 (p : prof) : bool := match p with P1202 => true | _ => false end.

(** util/profile.rs:48-64 (get_hash_iter) with pkg2.rs:33-51. *)
Definition prof_hashes (p : prof) (h1 h2 : Z) : list Z :=
  match p with
  | P1202 => calc_v6 h1 h2
  | P1201 | P1199 => calc_v4 (wrap 32 h1) (wrap 32 h2)
  | P1200 => calc_v5 (wrap 32 h1) (wrap 32 h2)
  | P1198 => calc_v3 (wrap 32 h1) (wrap 32 h2)
  | P1197 => calc_v2 (wrap 32 h1) (wrap 32 h2)
  | P1196 => calc_v1 (wrap 32 h1) (wrap 32 h2)
  end.

(** util/profile.rs:128-137 (Pkg2Profile::verify_hash). *)
Definition prof_verify (p : prof) (hash h1 h2 : Z) : bool :=
  let v := match p with
           | P1202 => fun _ _ _ => false
           | P1201 | P1199 => verify_v4
           | P1200 => verify_v5
           | P1198 => verify_v3
           | P1197 => verify_v2
           | P1196 => verify_v1
           end in
  if prof_64 p then verify_v6 h1 h2 hash
  else v (wrap 32 h1) (wrap 32 h2) (wrap 32 hash).
