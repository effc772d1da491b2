(** Vocabulary of C74. *)
From Verif Require Import Base MpiModel MpiSpec MemModel MemSpec.

(** The modulus, when there is one, is a positive number held by an object of
    the caller. *)
Definition with_modulus (n : nat) (s : st) (mo : option nat) (m : option Z) : Prop :=
  match mo, m with
  | None, None => True
  | Some x, Some v => (x < n)%nat /\ has s x (ofZ v) /\ 0 < v
  | _, _ => False
  end.
Definition power (b e : Z) (m : option Z) : Z :=
  match m with None => b ^ e | Some m => (b ^ e) mod m end.

(** Outcome of a modular inversion of [a] modulo [m]. *)
Definition inverse_outcome (n r : nat) (a m : Z) (s : st) (rc : Z) (s' : st) : Prop :=
  calm n s' /\ keeps n r s s' /\
  (Z.gcd a m = 1 -> rc = 0 /\ exists w, has s' r (ofZ w) /\ 0 <= w < m /\ (a * w) mod m = 1 mod m) /\
  (Z.gcd a m <> 1 -> rc = -1 /\ mem s' r = mem s r).

(** Three objects of the caller. *)
Definition three (x y z : obj) : st :=
  mkst (fun i => match i with 0%nat => Some x | 1%nat => Some y | 2%nat => Some z | _ => None end) 0.
(** The first [k] allocations are granted, then none; all but number [k]. *)
Definition first (k : nat) : env := mkenv (fun i => (i <? k)%nat) (fun _ i => Z.of_nat i + 17).
Definition all_but (k : nat) : env := mkenv (fun i => negb (i =? k)%nat) (fun _ i => Z.of_nat i + 17).
