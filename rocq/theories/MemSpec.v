(** Vocabulary of the memory-level statements. *)
From Verif Require Import Base MpiModel MemModel.

(** Object [x] is initialised, its digits in use lie inside its buffer, and it
    holds the number [v]. *)
Definition has (s : st) (x : nat) (v : mpi) : Prop :=
  exists o, mem s x = Some o /\ (o_us o <= length (o_da o))%nat /\ view o = v.

(** No object from [n] on owns a buffer (nothing to leak). *)
Definition calm (n : nat) (s : st) : Prop :=
  forall x, (n <= x)%nat -> mem s x = None \/ mem s x = Some void.

(** Some allocation made between the two states was refused. *)
Definition starved (e : env) (s s' : st) : Prop :=
  exists k, (tick s <= k < tick s')%nat /\ grant e k = false.

(** Of the objects below [n] only [r] may differ. *)
Definition keeps (n r : nat) (s s' : st) : Prop :=
  (forall x, (x < n)%nat -> x <> r -> mem s' x = mem s x) /\ (tick s <= tick s')%nat.

(** Outcome of a call with destination [r] that should compute [v]: either it
    returns 0 and [r] holds [v], or it returns -1, an allocation was refused,
    and [r] is untouched ([strong]) or at least still a usable object. *)
Definition after (e : env) (n r : nat) (strong : bool) (v : mpi) (s : st) (rc : Z) (s' : st) : Prop :=
  calm n s' /\ keeps n r s s' /\
  (rc = 0 /\ has s' r v \/
   rc = -1 /\ starved e s s' /\ (if strong then mem s' r = mem s r else exists w, has s' r w)).

(** The command ends (no undefined behaviour, no loop bound reached) in a state
    satisfying [Q]. *)
Definition wp {A : Type} (m : cmd A) (e : env) (s : st) (Q : A -> st -> Prop) : Prop :=
  match m e s with Ok (a, s') => Q a s' | _ => False end.

(** Object [x] is initialised. *)
Definition usable (s : st) (x : nat) : Prop := exists v, has s x v.

(** Sample states and environments for the examples. *)
Definition two (x y : obj) : st :=
  mkst (fun i => match i with 0%nat => Some x | 1%nat => Some y | _ => None end) 0.
Definition nothing : env := mkenv (fun _ => false) (fun _ _ => 0).
Definition plenty : env := mkenv (fun _ => true) (fun _ i => Z.of_nat i + 17).

(** The same for two destinations that may be NULL (quotient and remainder). *)
Definition holds (s : st) (o : option nat) (v : mpi) : Prop :=
  match o with Some x => has s x v | None => True end.
Definition after2 (e : env) (n : nat) (rq rr : option nat) (strong : bool) (qv rv : mpi) (s : st) (rc : Z) (s' : st) : Prop :=
  calm n s' /\ (forall x, (x < n)%nat -> Some x <> rq -> Some x <> rr -> mem s' x = mem s x) /\ (tick s <= tick s')%nat /\
  (rc = 0 /\ holds s' rq qv /\ holds s' rr rv \/
   rc = -1 /\ starved e s s' /\
   (if strong then forall x, (x < n)%nat -> mem s' x = mem s x
    else forall x, Some x = rq \/ Some x = rr -> usable s' x)).
