(** Specification vocabulary: integers as byte strings. *)
From Verif Require Import Base.

(** Big-endian value of a byte string. *)
Definition be_val (l : list Z) : Z := fold_left (fun v b => 256 * v + b) l 0.

(** Little-endian value. *)
Fixpoint le_val (l : list Z) : Z :=
  match l with
  | [] => 0
  | b :: r => b + 256 * le_val r
  end.

(** The [n] low bytes of an integer, least significant first / last. *)
Fixpoint le_bytes (n : nat) (v : Z) : list Z :=
  match n with
  | O => []
  | S m => v mod 256 :: le_bytes m (v / 256)
  end.
Definition be_bytes (n : nat) (v : Z) : list Z := rev (le_bytes n v).
