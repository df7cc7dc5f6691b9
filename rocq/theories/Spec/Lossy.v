(** Texts that are not well formed: what is read of them. *)
From Coq Require Import ZArith List Bool.
From Verif.Spec Require Import Media.
Import ListNotations.
Open Scope Z_scope.

(** The beginning, but not all, of a character of UTF-8. *)
Definition stub (p : list Z) : Prop := exists c b x, utf8_char c b /\ b = p ++ x /\ x <> [].
(** No character stands here, and [p] is as much of one as there is, or else one byte. *)
Definition subpart (p rest : list Z) : Prop :=
  p <> [] /\ (forall c b x, utf8_char c b -> p ++ rest <> b ++ x) /\ (stub p \/ length p = 1%nat) /\
  (forall q x, stub q -> p ++ rest = q ++ x -> (length q <= length p)%nat).
(** The characters in order, U+FFFD standing for each such part. *)
Inductive lossy8 : list Z -> list Z -> Prop :=
| lossy8_nil : lossy8 [] []
| lossy8_char c b rest t : utf8_char c b -> lossy8 rest t -> lossy8 (b ++ rest) (c :: t)
| lossy8_bad p rest t : subpart p rest -> lossy8 rest t -> lossy8 (p ++ rest) (0xFFFD :: t).

(** Units of UTF-16; U+FFFD stands for a unit of a pair that is alone. *)
Inductive lossy16 : list Z -> list Z -> Prop :=
| lossy16_nil : lossy16 [] []
| lossy16_one u rest t : 0 <= u < 0xD800 \/ 0xE000 <= u < 0x10000 -> lossy16 rest t -> lossy16 (u :: rest) (u :: t)
| lossy16_pair u v c h l rest t : 0 <= h < 2 ^ 10 -> 0 <= l < 2 ^ 10 -> u = 0xD800 + h -> v = 0xDC00 + l -> c = 0x10000 + 2 ^ 10 * h + l ->
    lossy16 rest t -> lossy16 (u :: v :: rest) (c :: t)
| lossy16_low u rest t : 0xDC00 <= u < 0xE000 -> lossy16 rest t -> lossy16 (u :: rest) (0xFFFD :: t)
| lossy16_high u rest t : 0xD800 <= u < 0xDC00 -> (forall v r, rest = v :: r -> ~ 0xDC00 <= v < 0xE000) -> lossy16 rest t ->
    lossy16 (u :: rest) (0xFFFD :: t).
