(** property/vector.rs: arithmetic of [Vector2D]. *)
From Coq Require Import Floats.SpecFloat.
From Verif.Model Require Import Base.

(** [Vector2D] (property/vector.rs:7-9): two i32. *)
Definition vec := (Z * Z)%type.
(** [+] (property/vector.rs:31-33), wrapping as in release builds. *)
Definition vec_add (a b : vec) : vec := (sext 32 (fst a + fst b), sext 32 (snd a + snd b)).
(** [-] (property/vector.rs:39-41). *)
Definition vec_sub (a b : vec) : vec := (sext 32 (fst a - fst b), sext 32 (snd a - snd b)).
(** [*] (property/vector.rs:47-49). *)
Definition vec_mul (a b : vec) : vec := (sext 32 (fst a * fst b), sext 32 (snd a * snd b)).
(** [/] on i32 (property/vector.rs:55-57): panics for a divisor 0 and for the minimum divided by -1. *)
Definition i32_div (x y : Z) : res Z :=
  if (y =? 0) || ((x =? - 2 ^ 31) && (y =? -1)) then Panic else Ok (Z.quot x y).
(** [/] (property/vector.rs:55-57). *)
Definition vec_div (a b : vec) : res vec :=
  rbind (i32_div (fst a) (fst b)) (fun x => rbind (i32_div (snd a) (snd b)) (fun y => Ok (x, y))).

(** [as f64] of an i32 (property/vector.rs:16-17). *)
Definition to_f64 (z : Z) : spec_float := binary_normalize 53 1024 z 0 false.
(** [distance] (property/vector.rs:15-19): the differences are taken in i32, the rest in f64 (IEEE 754, round to even). *)
Definition vec_distance (a b : vec) : spec_float :=
  let x := to_f64 (sext 32 (fst b - fst a)) in
  let y := to_f64 (sext 32 (snd b - snd a)) in
  SFsqrt 53 1024 (SFadd 53 1024 (SFmul 53 1024 x x) (SFmul 53 1024 y y)).
