(** Ownership of digit buffers, for C92. *)
From Verif Require Import Base LifeModel.

(** Object o holds block b. *)
Definition owns (s : st) (o b : nat) : Prop := data (objs s o) = Some (Heap b).
(** Object o holds no block: clear or never written, or a constant table. *)
Definition idle (s : st) (o : nat) : Prop := forall b, ~ owns s o b.

(** Every block in use is held by exactly one object, and every object that holds
    a block knows that it must free it. *)
Definition well_owned (s : st) : Prop :=
  (forall o b, owns s o b -> live s b = true /\ exists k, alloc (objs s o) = Some (S k)) /\
  (forall o1 o2 b, owns s o1 b -> owns s o2 b -> o1 = o2) /\
  (forall b, live s b = true -> exists o, owns s o b) /\
  (forall b, live s b = true -> (b < asked s)%nat) /\
  (forall o, data (objs s o) = Some Static -> alloc (objs s o) = Some 0%nat).

(** The rules for callers: initialise (or load a table into) objects that hold no
    block; clear objects that were initialised once; grow initialised objects that
    do not stand for a table. *)
Definition allowed (s : st) (c : op) : Prop :=
  match c with
  | Init o | Load o => idle s o
  | Clear o => data (objs s o) <> None
  | Grow o n => data (objs s o) <> None /\ data (objs s o) <> Some Static /\ alloc (objs s o) <> None
  | Swap _ _ => True
  end.
Fixpoint allowed_run (gr : nat -> bool) (l : list op) (s : st) : Prop :=
  match l with
  | [] => True
  | c :: l => allowed s c /\ forall rc s', step gr c s = Done rc s' -> allowed_run gr l s'
  end.

(** The objects c .. c + n - 1. *)
Definition member (c n o : nat) : Prop := (c <= o < c + n)%nat.

(** A call that sets up the n members of a context either gives a block to each of
    them and returns 0, or fails with no member holding a block.  No other object
    changes, and the blocks in use stay well owned. *)
Definition sets_up (m : st -> out) (c n : nat) : Prop := forall s, well_owned s -> (forall o, member c n o -> idle s o) ->
  exists rc s', m s = Done rc s' /\ well_owned s' /\ (forall o, ~ member c n o -> objs s' o = objs s o) /\
    (rc = 0 /\ (forall o, member c n o -> exists b, objs s' o = mkobj (Some (Heap b)) (Some quantum) /\ live s b = false) \/
     rc = -1 /\ (forall o, member c n o -> idle s' o) /\ forall b, live s' b = live s b).

(** A call that clears the n members of a context gives back exactly the blocks
    they hold. *)
Definition gives_back (m : st -> out) (c n : nat) : Prop := forall s, well_owned s -> (forall o, member c n o -> data (objs s o) <> None) ->
  exists s', m s = Done 0 s' /\ well_owned s' /\ (forall o, member c n o -> objs s' o = void) /\ (forall o, ~ member c n o -> objs s' o = objs s o) /\
    forall b, live s' b = true <-> live s b = true /\ forall o, member c n o -> ~ owns s o b.

(** The start of a program: nothing was written, no block is in use. *)
Definition start : st := mkst (fun _ => mkobj None None) (fun _ => false) 0.

(** What holds after a call, for examples. *)
Definition after (m : st -> out) (s : st) (P : Z -> st -> Prop) : Prop := match m s with Done rc s' => P rc s' | Undef => False end.
