(** The Hill cipher: blocks multiplied by a matrix modulo 256. *)
From Verif Require Import Base DetSpec.

(** The n x n matrix whose rows are in [l]. *)
Definition mat_of (n : nat) (l : list Z) : mat := fun r c => nth (r * n + c) l 0.
Definition hill_block (n : nat) (A : mat) (v : list Z) : list Z :=
  map (fun i => sum n (fun j => A i j * nth j v 0) mod 256) (seq 0 n).
(** Both of the following are about matrices modulo 256. *)
Definition inverse256 (n : nat) (B A : mat) : Prop :=
  forall i j, (i < n)%nat -> (j < n)%nat -> mulm n B A i j mod 256 = idm i j.
Definition invertible256 (n : nat) (A : mat) : Prop := exists B, inverse256 n B A.
(** The zeros that complete the last block. *)
Definition hill_pad (n : nat) (l : list Z) : list Z := l ++ repeat 0 ((n - length l mod n) mod n).
