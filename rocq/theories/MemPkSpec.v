(** Vocabulary of the memory-level statements on DH, ElGamal, DSA and RSA. *)
From Verif Require Import Base BytesSpec MpiModel MpiSpec MpiDigits MpiIOModel MpiTextSpec MemModel MemSpec MemEcpSpec.

(** The command ends in a state satisfying [Q]; or its behaviour is undefined,
    and an allocation it may have made was refused. *)
Definition unless_refused {A : Type} (m : cmd A) (e : env) (s : st) (Q : A -> st -> Prop) : Prop :=
  match m e s with
  | Ok (a, s') => Q a s'
  | UB => exists k, (tick s <= k)%nat /\ grant e k = false
  | _ => False
  end.

(** Outcome of a call that changes no object and should return [v]: it does, or
    it fails with [bad] and an allocation was refused. *)
Definition returns {A : Type} (e : env) (n : nat) (bad v : A) (s : st) (r : A) (s' : st) : Prop :=
  untouched n s s' /\ (tick s <= tick s')%nat /\ (r = v \/ r = bad /\ starved e s s').

(** The objects of a context, from number [c] on, hold these numbers. *)
Fixpoint holding (s : st) (c : nat) (l : list Z) : Prop :=
  match l with
  | [] => True
  | v :: l => has s c (ofZ v) /\ holding s (S c) l
  end.
(** The numbers [l] in the objects from 0 on; no allocation made yet. *)
Definition shelf (l : list Z) : st := mkst (fun i => nth_error (map (fun v => mkobj (neg (ofZ v)) (used (ofZ v)) (dg (ofZ v))) l) i) 0.

(** The bytes [bin] of the generator give the number [k] below [t], and the top
    digit of what they fill is not zero. *)
Definition drawn (t : Z) (bin : list Z) (k : Z) : Prop :=
  draw_for t bin /\ rand_range false 8 (ofZ t) bin = Ok (ofZ k) /\ B ^ (Z.of_nat (used (ofZ t)) - 1) <= be_val bin.

(** The digits filled by a byte string, leading zeros dropped; the allocations
    (0 or 1) it takes to read it into an object with room for [l] digits. *)
Definition bin_digs (buf : list Z) : nat := match skip_zeros buf with [] => 0%nat | p => S ((length p - 1) / 8) end.
Definition more (l : nat) (buf : list Z) : nat := if (l <? bin_digs buf)%nat then 1%nat else 0%nat.
