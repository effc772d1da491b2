(** NIST SP 800-38A modes of operation over blocks. *)
From Verif Require Import Base BytesSpec.

(** C_i = E (P_i xor C_{i-1}), C_0 = IV *)
Fixpoint cbc_spec (E : list Z -> list Z) (prev : list Z) (ps : list (list Z)) : list (list Z) :=
  match ps with
  | [] => []
  | p :: r => let c := E (xorl p prev) in c :: cbc_spec E c r
  end.

(** CFB with full blocks: C_i = P_i xor E (C_{i-1}); the last may be short *)
Fixpoint cfb_spec (E : list Z -> list Z) (prev : list Z) (ps : list (list Z)) : list (list Z) :=
  match ps with
  | [] => []
  | p :: r => let c := xorl p (E prev) in c :: cfb_spec E c r
  end.

(** CFB with 8-bit segments: the shift register takes the ciphertext byte in *)
Fixpoint cfb8_spec (E : list Z -> list Z) (reg : list Z) (ps : list Z) : list Z :=
  match ps with
  | [] => []
  | p :: r => let c := Z.lxor p (nth 0 (E reg) 0) in c :: cfb8_spec E (skipn 1 reg ++ [c]) r
  end.

(** CTR key stream: encryptions of the counters t, t+1, t+2, ... written on
    [n] bytes big endian, modulo 2^(8n) *)
Definition ctr_stream (E : list Z -> list Z) (n : nat) (t : Z) (blocks : nat) : list Z :=
  concat (map (fun i => E (be_bytes n (t + Z.of_nat i))) (seq 0 blocks)).
