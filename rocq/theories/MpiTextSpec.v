(** Specification of positional notation in ASCII, and of the Miller-Rabin
    condition. *)
From Verif Require Import Base.

(** Value of a digit character; -1 for any other character. *)
Definition char_val (c : Z) : Z :=
  if ((48 <=? c) && (c <=? 57))%bool then c - 48
  else if ((97 <=? c) && (c <=? 122))%bool then c - 87
  else if ((65 <=? c) && (c <=? 90))%bool then c - 55
  else -1.
Definition valid_digit (radix c : Z) : Prop := 0 <= char_val c < radix.

(** Value of a digit string, most significant first. *)
Definition num_val (radix : Z) (s : list Z) : Z := fold_left (fun v c => v * radix + char_val c) s 0.

(** Miller-Rabin: p-1 = 2^b * m with m odd, and a^m = 1 or a^(2^j m) = -1 mod p
    for some j <= b. *)
Definition miller_rabin (p a : Z) : Prop :=
  exists b m, 0 <= b /\ p - 1 = 2 ^ b * m /\ Z.odd m = true /\
    (a ^ m mod p = 1 \/ exists j, 0 <= j <= b /\ (a ^ (2 ^ j * m)) mod p = p - 1).

(** 64-bit digits needed for a number of [bits] bits. *)
Definition ndigs (bits : Z) : nat := Z.to_nat ((bits - 1) / 64 + 1).

(** The bytes a generator must supply for a number below [max]: one for every 8
    bits of [max], rounded up. *)
Definition draw_for (max : Z) (bin : list Z) : Prop :=
  bytes bin /\ Z.of_nat (length bin) = (Z.log2 max + 8) / 8.
