(** RFC 3394, AES key wrap (2.2.1 and 2.2.2), over a cipher E with inverse D on
    blocks of 16 bytes.  The registers R[1] .. R[n] are a list of 8-byte blocks.
    [tv] gives the value added at step t: t itself in the RFC. *)
From Verif Require Import Base BytesSpec.

Definition iv : list Z := repeat 0xA6 8.
(** the pairs (j, i), in order *)
Definition steps (n : nat) : list (nat * nat) := list_prod (seq 0 6) (seq 1 n).
Definition tstep (n : nat) (p : nat * nat) : Z := Z.of_nat (n * fst p + snd p).
(** B = AES(K, A | R[i]);  A = MSB(64, B) ^ t;  R[i] = LSB(64, B) *)
Definition step (tv : Z -> Z) (E : list Z -> list Z) (n : nat) (st : list Z * list (list Z)) (p : nat * nat) : list Z * list (list Z) :=
  let b := E (fst st ++ nth (snd p - 1) (snd st) []) in
  (xorl (firstn 8 b) (be_bytes 8 (tv (tstep n p))), upd (snd st) (snd p - 1) (skipn 8 b)).
(** B = AES-1(K, (A ^ t) | R[i]);  A = MSB(64, B);  R[i] = LSB(64, B) *)
Definition unstep (tv : Z -> Z) (D : list Z -> list Z) (n : nat) (st : list Z * list (list Z)) (p : nat * nat) : list Z * list (list Z) :=
  let b := D (xorl (fst st) (be_bytes 8 (tv (tstep n p))) ++ nth (snd p - 1) (snd st) []) in
  (firstn 8 b, upd (snd st) (snd p - 1) (skipn 8 b)).
Definition wrap_with (tv : Z -> Z) (E : list Z -> list Z) (p : list Z) : list Z :=
  let n := (length p / 8)%nat in
  let st := fold_left (step tv E n) (steps n) (iv, chunks 8 p) in
  fst st ++ concat (snd st).
Definition unwrap_with (tv : Z -> Z) (D : list Z -> list Z) (c : list Z) : option (list Z) :=
  let n := (length c / 8 - 1)%nat in
  let st := fold_left (unstep tv D n) (rev (steps n)) (firstn 8 c, chunks 8 (skipn 8 c)) in
  if list_eq_dec Z.eq_dec (fst st) iv then Some (concat (snd st)) else None.

Definition rfc_wrap := wrap_with (fun t => t).
Definition rfc_unwrap := unwrap_with (fun t => t).
(** what the library does: the step counter modulo 256 *)
Definition wrap8 := wrap_with (fun t => t mod 256).
Definition unwrap8 := unwrap_with (fun t => t mod 256).
