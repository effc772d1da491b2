(** The published RC4 generator, on a table given as a function on 0..255. *)
From Verif Require Import Base.

Definition swap (S : Z -> Z) (i j : Z) : Z -> Z :=
  fun x => if x =? i then S j else if x =? j then S i else S x.

(** key scheduling: for i = 0, 1, ..., 255: j := j + S[i] + key[i mod length], swap S[i], S[j] *)
Fixpoint rc4_sched (n : nat) (i : Z) (S : Z -> Z) (j : Z) (key : list Z) : Z -> Z :=
  match n with
  | O => S
  | Datatypes.S n' =>
      let j := (j + S i + nth (Z.to_nat (i mod Z.of_nat (length key))) key 0) mod 256 in
      rc4_sched n' (i + 1) (swap S i j) j key
  end.

(** generation of [n] key-stream bytes *)
Fixpoint rc4_gen (n : nat) (i j : Z) (S : Z -> Z) : list Z :=
  match n with
  | O => []
  | Datatypes.S n' =>
      let i := (i + 1) mod 256 in
      let j := (j + S i) mod 256 in
      let S := swap S i j in
      S ((S i + S j) mod 256) :: rc4_gen n' i j S
  end.

Definition rc4_stream (key : list Z) (n : nat) : list Z :=
  rc4_gen n 0 0 (rc4_sched 256 0 (fun x => x) 0 key).
