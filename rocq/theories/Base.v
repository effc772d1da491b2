(** Common vocabulary of the model: outcomes, bytes, words. *)
From Coq Require Export ZArith List Bool Lia.
From Coq Require Export ZifyBool ZifyNat.
Export ListNotations.
Global Open Scope Z_scope.

(** Outcome of a C call.  [Err rc]: the call returns the error code [rc].
    [UB]: C leaves the behaviour undefined.  [Fuel]: the model's loop bound was
    exhausted (never a C outcome; theorems exclude it). *)
Inductive res (A : Type) : Type :=
| Ok (a : A)
| Err (rc : Z)
| UB
| Fuel.
Arguments Ok {A} a.
Arguments Err {A} rc.
Arguments UB {A}.
Arguments Fuel {A}.

Definition bind {A B : Type} (m : res A) (f : A -> res B) : res B :=
  match m with
  | Ok a => f a
  | Err rc => Err rc
  | UB => UB
  | Fuel => Fuel
  end.

Notation "'do' x <- m ; f" := (bind m (fun x => f))
  (at level 200, x name, m at level 100, f at level 200, right associativity).
Notation "'do' ' p <- m ; f" := (bind m (fun p => f))
  (at level 200, p strict pattern, m at level 100, f at level 200, right associativity).

(** A byte / a list of bytes. *)
Definition byte (b : Z) : Prop := 0 <= b < 256.
Definition bytes (l : list Z) : Prop := Forall byte l.

(** Byte-wise exclusive or of two lists (shorter length). *)
Fixpoint xorl (a b : list Z) : list Z :=
  match a, b with
  | x :: a', y :: b' => Z.lxor x y :: xorl a' b'
  | _, _ => []
  end.

(** Split a list into consecutive blocks of [n]; the last one may be shorter.
    [fuel] bounds the number of blocks (the length of the list suffices). *)
Fixpoint chunks_aux (fuel : nat) (n : nat) (l : list Z) : list (list Z) :=
  match fuel with
  | O => []
  | S f => match l with
           | [] => []
           | _ => firstn n l :: chunks_aux f n (skipn n l)
           end
  end.
Definition chunks (n : nat) (l : list Z) : list (list Z) :=
  chunks_aux (length l) n l.

(** Replace element [i] of a list. *)
Fixpoint upd {A : Type} (l : list A) (i : nat) (v : A) : list A :=
  match l, i with
  | [], _ => []
  | _ :: r, O => v :: r
  | x :: r, S j => x :: upd r j v
  end.
