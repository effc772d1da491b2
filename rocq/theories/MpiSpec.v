(** Specification side of the multi-precision integers: which integer a digit
    list denotes, and which representations are well formed. *)
From Verif Require Import Base MpiModel.

(** Value of a little-endian digit list. *)
Fixpoint val (l : list Z) : Z :=
  match l with
  | [] => 0
  | d :: r => d + B * val r
  end.

(** The integer denoted by a multi-precision object. *)
Definition mval (a : mpi) : Z := if neg a then - val (dg a) else val (dg a).

(** Every digit fits a 64-bit word. *)
Definition digits (l : list Z) : Prop := Forall (fun d => 0 <= d < B) l.

(** No leading (most significant) zero digit. *)
Definition normal (l : list Z) : Prop := l = [] \/ last l 0 <> 0.

(** Well formed: digits in range, normalised.  A zero may carry a sign. *)
Definition wf (a : mpi) : Prop := digits (dg a) /\ normal (dg a).

(** Canonical: well formed and zero is not negative.  Every integer has exactly
    one canonical representation. *)
Definition canon (a : mpi) : Prop := wf a /\ (dg a = [] -> neg a = false).

(** The canonical representation of an integer, as a function. *)
Fixpoint to_digs (fuel : nat) (z : Z) : list Z :=
  match fuel with
  | O => []
  | S f => if z <=? 0 then [] else z mod B :: to_digs f (z / B)
  end.
Definition ofZ (z : Z) : mpi :=
  mkmpi (z <? 0) (to_digs (S (Z.to_nat (Z.log2 (Z.abs z) / 64))) (Z.abs z)).
