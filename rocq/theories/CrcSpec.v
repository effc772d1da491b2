(** CRC as polynomial division: the message is read bit by bit, each byte least
    significant bit first; the first bit is the highest coefficient. *)
From Verif Require Import Base Poly2Spec.

(** Bits of an integer, least significant first. *)
Definition bits_lsb (n : nat) (v : Z) : list bool := map (fun i => Z.testbit v (Z.of_nat i)) (seq 0 n).

(** Polynomial of a bit list, first bit = highest coefficient. *)
Definition poly (l : list bool) : Z := fold_left (fun v b => 2 * v + Z.b2z b) l 0.

Definition msg_bits (m : list Z) : list bool := flat_map (bits_lsb 8) m.

(** A register read with its lowest bit as highest coefficient. *)
Definition refl (w : nat) (v : Z) : Z := poly (bits_lsb w v).

(** [r] is the register after message [m] from register [init]: the remainder of
    m(x) x^w + init(x) x^|m|, divided by g. *)
Definition is_crc (w : nat) (g init : Z) (m : list Z) (r : Z) : Prop :=
  0 <= r < 2 ^ Z.of_nat w /\
  is_rem (Z.of_nat w) g
    (Z.lxor (poly (msg_bits m) * 2 ^ Z.of_nat w) (refl w init * 2 ^ Z.of_nat (length (msg_bits m))))
    (refl w r).
