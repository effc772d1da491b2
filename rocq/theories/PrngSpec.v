(** What the generators should produce. *)
From Verif Require Import Base BytesSpec AesSpec.

(** Byte i of the key stream of a block cipher in counter mode, from counter c. *)
Definition ctr_byte (E : list Z -> list Z) (c : Z) (i : nat) : Z :=
  nth (Nat.modulo i 16) (E (be_bytes 16 (c + Z.of_nat (i / 16)))) 0.
(** The seed: 16 bytes of key, then 16 bytes of counter, completed by zeros. *)
Definition seed_part (k : nat) (seed : list Z) : list Z := firstn 16 (skipn (16 * k) seed ++ repeat 0 16).

(** LFSR113 (L'Ecuyer, "Tables of maximally equidistributed combined LFSR
    generators"): component with parameters k, q, s. *)
Definition lfsr_comp (k q s z : Z) : Z :=
  Z.lxor (Z.shiftl (Z.land z (2 ^ 32 - 2 ^ k)) s mod 2 ^ 32) (Z.shiftr (Z.lxor (Z.shiftl z q mod 2 ^ 32) z) (32 - k - s)).
Definition lfsr_next (z : Z * Z * Z * Z) : Z * Z * Z * Z :=
  let '(z1, z2, z3, z4) := z in (lfsr_comp 1 6 18 z1, lfsr_comp 3 2 2 z2, lfsr_comp 4 13 7 z3, lfsr_comp 7 3 13 z4).
Definition lfsr_out (z : Z * Z * Z * Z) : Z := let '(z1, z2, z3, z4) := z in Z.lxor (Z.lxor (Z.lxor z1 z2) z3) z4.
(** the n-th word of the stream, from 0 *)
Definition lfsr_word (z : Z * Z * Z * Z) (n : nat) : Z := lfsr_out (Nat.iter (S n) lfsr_next z).
(** byte i of the stream, words being written big-endian *)
Definition lfsr_byte (z : Z * Z * Z * Z) (i : nat) : Z := nth (Nat.modulo i 4) (be_bytes 4 (lfsr_word z (i / 4))) 0.
(** the documented minimum, and registers being 32-bit words *)
Definition lfsr_good (z : Z * Z * Z * Z) : Prop :=
  let '(z1, z2, z3, z4) := z in 1 < z1 < 2 ^ 32 /\ 7 < z2 < 2 ^ 32 /\ 15 < z3 < 2 ^ 32 /\ 127 < z4 < 2 ^ 32.
Definition lfsr_words32 (z : Z * Z * Z * Z) : Prop :=
  let '(z1, z2, z3, z4) := z in 0 <= z1 < 2 ^ 32 /\ 0 <= z2 < 2 ^ 32 /\ 0 <= z3 < 2 ^ 32 /\ 0 <= z4 < 2 ^ 32.
