(** What the reading functions without a reader should give. *)
From Verif.Model Require Import Base.

(** A string with a long length that is negative. *)
Definition negative_length (buf : list Z) : Prop := (nth 0 buf 0 = 127 \/ nth 0 buf 0 = 128) /\ 128 <= nth 4 buf 0.

(** Where the free function panics, the reader reports that the range is out of bounds. *)
Definition or_error {A} (r : res A) : res A := match r with Panic => Err EOob | x => x end.
