(** Integer matrices as functions, and the determinant by expansion along the
    first row. *)
From Verif Require Import Base.

Definition mat : Type := nat -> nat -> Z.
Fixpoint sum (n : nat) (f : nat -> Z) : Z :=
  match n with O => 0 | S n => sum n f + f n end.
Definition sgn (k : nat) : Z := if Nat.even k then 1 else -1.
(** The index with position [i] left out. *)
Definition skip (i k : nat) : nat := if Nat.ltb k i then k else S k.
Definition minor (M : mat) (i j : nat) : mat := fun r c => M (skip i r) (skip j c).
Fixpoint det (n : nat) (M : mat) : Z :=
  match n with
  | O => 1
  | S n => sum (S n) (fun j => sgn j * M O j * det n (minor M O j))
  end.
Definition mulm (n : nat) (A B : mat) : mat := fun i j => sum n (fun k => A i k * B k j).
Definition idm : mat := fun i j => if Nat.eqb i j then 1 else 0.
