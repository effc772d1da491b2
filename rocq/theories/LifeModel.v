(** Who owns the digit buffers: src/mpi/mpi_core.c, src/misc.c, src/ecp and the
    contexts of src/crypt.

    Only the members [data] and [alloc] of a cry_mpi are kept; digits, [used] and
    [sign] are left out.  Objects have numbers, and the members of a context have
    consecutive numbers in the order of the struct.  The k-th request for memory
    is granted iff [gr k]; it then yields block k, so no block number is used
    twice (a simplification: malloc may return an address that was freed). *)
From Verif Require Import Base.

(** What [data] points to: nothing, a block from malloc or realloc, or a constant
    table of ecp_curves.c. *)
Inductive ptr := Null | Heap (b : nat) | Static.
(** include/cry/mpi.h struct cry_mpi; [None]: never written. *)
Record obj := mkobj { data : option ptr; alloc : option nat }.
Record st := mkst { objs : nat -> obj; live : nat -> bool; asked : nat }.
(** A call returns a code (0 for void functions), or its behaviour is undefined. *)
Inductive out := Done (rc : Z) (s : st) | Undef.

Definition andthen (m : out) (f : Z -> st -> out) : out :=
  match m with Done rc s => f rc s | Undef => Undef end.
Notation "'call' ( rc , s ) <- m ; f" := (andthen m (fun rc s => f))
  (at level 200, rc name, s name, m at level 100, f at level 200, right associativity).

Definition upd {A} (f : nat -> A) (o : nat) (x : A) : nat -> A := fun y => if Nat.eqb y o then x else f y.
Definition set_obj (s : st) (o : nat) (x : obj) : st := mkst (upd (objs s) o x) (live s) (asked s).
(** The state of an object that holds nothing. *)
Definition void : obj := mkobj (Some Null) (Some 0%nat).
(** src/mpi/mpi_pvt.h:31-38 CRY_MPI_QUANTUM *)
Definition quantum : nat := 8.

Section Requests.
Variable gr : nat -> bool.

(** src/mpi/mpi_core.c:26-38 cry_mpi_init: [data] is written even when malloc fails *)
Definition mpi_init (o : nat) (s : st) : out :=
  if gr (asked s)
  then Done 0 (mkst (upd (objs s) o (mkobj (Some (Heap (asked s))) (Some quantum))) (upd (live s) (asked s) true) (S (asked s)))
  else Done (-1) (mkst (upd (objs s) o (mkobj (Some Null) (alloc (objs s o)))) (live s) (S (asked s))).

(** src/mpi/mpi_core.c:120-131 cry_mpi_clear: free only when [alloc] is not 0 *)
Definition mpi_clear (o : nat) (s : st) : out :=
  match data (objs s o), alloc (objs s o) with
  | None, _ => Undef
  | Some Null, _ => Done 0 (set_obj s o void)
  | Some _, None => Undef
  | Some _, Some O => Done 0 (set_obj s o void)
  | Some (Heap b), Some (S _) =>
      if live s b then Done 0 (mkst (upd (objs s) o void) (upd (live s) b false) (asked s)) else Undef
  | Some Static, Some (S _) => Undef
  end.

(** src/mpi/mpi_core.c:5-24 cry_mpi_grow; realloc frees the old block when it
    succeeds and needs a block from malloc, or NULL *)
Definition mpi_grow (o n : nat) (s : st) : out :=
  match alloc (objs s o) with
  | None => Undef
  | Some a =>
    if Nat.leb n a then Done 0 s
    else
      let n' := (n + (quantum * 2 - n mod quantum))%nat in
      let new (lv : nat -> bool) := mkst (upd (objs s) o (mkobj (Some (Heap (asked s))) (Some n'))) (upd lv (asked s) true) (S (asked s)) in
      let fail := Done (-1) (mkst (objs s) (live s) (S (asked s))) in
      match data (objs s o) with
      | Some Null => if gr (asked s) then Done 0 (new (live s)) else fail
      | Some (Heap b) => if live s b then (if gr (asked s) then Done 0 (new (upd (live s) b false)) else fail) else Undef
      | _ => Undef
      end
  end.

(** include/cry/mpi.h:181-185 cry_mpi_swap: the structs are exchanged *)
Definition mpi_swap (o1 o2 : nat) (s : st) : out :=
  Done 0 (mkst (upd (upd (objs s) o1 (objs s o2)) o2 (objs s o1)) (live s) (asked s)).

(** src/ecp/ecp_curves.c:608-614 ecp_mpi_load *)
Definition mpi_load (o : nat) (s : st) : out := Done 0 (set_obj s o (mkobj (Some Static) (Some 0%nat))).

(** src/misc.c:56-65 cry_list_clear *)
Fixpoint clear_list (l : list nat) (s : st) : out :=
  match l with
  | [] => Done 0 s
  | o :: l => call (_, s) <- mpi_clear o s; clear_list l s
  end.

(** src/misc.c:30-54 cry_list_init; [done]: what is initialised so far *)
Fixpoint init_list (done l : list nat) (s : st) : out :=
  match l with
  | [] => Done 0 s
  | o :: l =>
      call (rc, s) <- mpi_init o s;
      if rc =? 0 then init_list (done ++ [o]) l s
      else call (_, s) <- clear_list done s; Done rc s
  end.

(** cry_memset(ctx, 0, sizeof ctx): every member becomes NULL, 0 *)
Fixpoint zero_list (l : list nat) (s : st) : st :=
  match l with
  | [] => s
  | o :: l => zero_list l (set_obj s o void)
  end.

(** src/mpi/mpi_core.c:72-97 cry_mpi_set_int asks for one digit *)
Definition set_int (o : nat) (s : st) : out := mpi_grow o 1 s.
(** include/cry/ecp.h:80-84 cry_ecp_set_zero; return codes are ignored *)
Definition set_zero (p : nat) (s : st) : out :=
  call (_, s) <- set_int p s; call (_, s) <- set_int (p + 1) s; call (_, s) <- set_int (p + 2) s; Done 0 s.

(** src/ecp/ecp_core.c:3-16 cry_ecp_init and cry_ecp_clear *)
Definition pt_objs (p : nat) : list nat := [p; p + 1; p + 2]%nat.
Definition pt_init (p : nat) (s : st) : out :=
  call (rc, s) <- init_list [] (pt_objs p) s;
  if rc =? 0 then call (_, s) <- set_zero p s; Done 0 s else Done rc s.
Definition pt_clear (p : nat) (s : st) : out := clear_list (pt_objs p) s.

(** src/ecp/ecp_core.c:45-62 cry_ecp_grp_init and cry_ecp_grp_clear; the members
    p, a, b, g.x, g.y, g.z, n (include/cry/ecp.h:38-44) *)
Definition grp_objs (g : nat) : list nat := [g; g + 1; g + 2; g + 6; g + 3; g + 4; g + 5]%nat.
Definition grp_init (g : nat) (s : st) : out :=
  call (rc, s) <- init_list [] (grp_objs g) s;
  if rc =? 0 then call (_, s) <- set_zero (g + 3) s; Done 0 s else Done rc s.
Definition grp_clear (g : nat) (s : st) : out := clear_list (grp_objs g) s.
(** src/ecp/ecp_curves.c:616-638, 648-714 cry_ecp_grp_load; [known]: whether the
    number names a curve *)
Definition grp_load (g : nat) (known : bool) (s : st) : out :=
  if known
  then call (_, s) <- mpi_load g s; call (_, s) <- mpi_load (g + 1) s; call (_, s) <- mpi_load (g + 2) s;
       call (_, s) <- mpi_load (g + 3) s; call (_, s) <- mpi_load (g + 4) s; call (_, s) <- mpi_load (g + 5) s;
       call (_, s) <- mpi_load (g + 6) s; Done 0 s
  else Done (-1) s.

(** src/crypt/dh.c:5-16; p, g, e, Y, Z (include/cry/dh.h:12-18) *)
Definition dh_objs (c : nat) : list nat := [c; c + 1; c + 2; c + 3; c + 4]%nat.
Definition dh_init (c : nat) (s : st) : out := init_list [] (dh_objs c) s.
Definition dh_clear (c : nat) (s : st) : out := call (_, s) <- clear_list (dh_objs c) s; Done 0 (zero_list (seq c 5) s).
(** src/crypt/dsa.c:124-135; p, q, g, pvt, pub (include/cry/dsa.h:11-17) *)
Definition dsa_objs (c : nat) : list nat := [c; c + 1; c + 2; c + 4; c + 3]%nat.
Definition dsa_init (c : nat) (s : st) : out := init_list [] (dsa_objs c) s.
Definition dsa_clear (c : nat) (s : st) : out := call (_, s) <- clear_list (dsa_objs c) s; Done 0 (zero_list (seq c 5) s).
(** src/crypt/rsa.c:355-368; n, e, d, p, q (include/cry/rsa.h:21-28); the padding
    mode is left out *)
Definition rsa_objs (c : nat) : list nat := [c + 2; c + 1; c; c + 3; c + 4]%nat.
Definition rsa_init (c : nat) (s : st) : out := init_list [] (rsa_objs c) s.
Definition rsa_clear (c : nat) (s : st) : out := call (_, s) <- clear_list (rsa_objs c) s; Done 0 (zero_list (seq c 5) s).
(** src/crypt/elgamal.c:164-174; p, g, y, d (include/cry/elgamal.h:14-19) *)
Definition elgamal_objs (c : nat) : list nat := [c; c + 3; c + 1; c + 2]%nat.
Definition elgamal_init (c : nat) (s : st) : out := init_list [] (elgamal_objs c) s.
Definition elgamal_clear (c : nat) (s : st) : out := call (_, s) <- clear_list (elgamal_objs c) s; Done 0 (zero_list (seq c 4) s).

(** src/crypt/ecdsa.c:94-120; the group, d, q (include/cry/ecdsa.h); [id]: None
    for -1, otherwise whether the number names a curve *)
Definition ecdsa_init (c : nat) (id : option bool) (s : st) : out :=
  call (rc, s) <- mpi_init (c + 7) s;
  if rc =? 0 then
    call (rc, s) <- pt_init (c + 8) s;
    if rc =? 0 then
      call (rc, s) <- match id with Some known => grp_load c known s | None => grp_init c s end;
      if rc =? 0 then Done 0 s
      else call (_, s) <- pt_clear (c + 8) s; call (_, s) <- mpi_clear (c + 7) s; Done rc s
    else call (_, s) <- mpi_clear (c + 7) s; Done rc s
  else Done rc s.
Definition ecdsa_clear (c : nat) (s : st) : out :=
  call (_, s) <- mpi_clear (c + 7) s; call (_, s) <- pt_clear (c + 8) s; call (_, s) <- grp_clear c s;
  Done 0 (zero_list (seq c 11) s).

(** src/crypt/ecdh.c:3-18; the group, d, q, z (include/cry/ecdh.h); no return code
    is looked at *)
Definition ecdh_init (c : nat) (s : st) : out :=
  call (_, s) <- grp_init c s; call (_, s) <- mpi_init (c + 7) s; call (_, s) <- pt_init (c + 8) s; call (_, s) <- pt_init (c + 11) s;
  Done 0 s.
Definition ecdh_clear (c : nat) (s : st) : out :=
  call (_, s) <- grp_clear c s; call (_, s) <- mpi_clear (c + 7) s; call (_, s) <- pt_clear (c + 8) s; pt_clear (c + 11) s.

(** One call of a history, and a history; return codes do not stop it. *)
Inductive op := Init (o : nat) | Clear (o : nat) | Grow (o n : nat) | Swap (o1 o2 : nat) | Load (o : nat).
Definition step (c : op) (s : st) : out :=
  match c with
  | Init o => mpi_init o s
  | Clear o => mpi_clear o s
  | Grow o n => mpi_grow o n s
  | Swap o1 o2 => mpi_swap o1 o2 s
  | Load o => mpi_load o s
  end.
Fixpoint run (l : list op) (s : st) : out :=
  match l with
  | [] => Done 0 s
  | c :: l => call (_, s) <- step c s; run l s
  end.
End Requests.
