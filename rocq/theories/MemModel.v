(** Memory-level model of the multi-precision integers: objects with a buffer,
    destinations that may be operands, and allocations that may fail.  The
    value-level model of MpiModel.v leaves these three things out.

    Representation (include/cry/mpi.h:57-62): an object has a sign, a count of
    digits in use and a buffer whose length is [alloc].

    Simplifications, valid for the memory-level files:
    - objects are named by numbers, and every object owns its buffer: no two
      objects share one (cry_mpi_swap exchanges buffers, so this is kept by all
      routines).  The one-digit constants the routines put on the stack are
      objects of their own;
    - an object in the state [None] is a structure nobody has initialised, or one
      whose initialisation failed; using it is undefined behaviour;
    - the automatic variables of a routine are the objects [n], [n+1], ...,
      where [n] is passed as the first argument; the objects below [n] belong to
      its callers;
    - sizes in bytes do not overflow size_t;
    - a pointer to before the first digit that is computed but not used (when no
      digit is in use: src/mpi/mpi_cmp_abs.c:17-18, mpi_shr.c:59) is not
      represented. *)
From Verif Require Import Base MpiModel.

Record obj : Type := mkobj { o_sg : bool; o_us : nat; o_da : list Z }.

(** The number an object holds. *)
Definition view (o : obj) : mpi := mkmpi (o_sg o) (firstn (o_us o) (o_da o)).

(** What cry_mpi_clear leaves: src/mpi/mpi_core.c:127-130. *)
Definition void : obj := mkobj false 0 [].

Record st : Type := mkst { mem : nat -> option obj; tick : nat }.

(** The environment: whether the k-th allocation succeeds, and what fresh
    memory contains. *)
Record env : Type := mkenv { grant : nat -> bool; junk : nat -> nat -> Z }.

(** * Commands.  The outcome [Err] is never used: a C return code is a value. *)
Definition cmd (A : Type) : Type := env -> st -> res (A * st).
Definition ret {A : Type} (a : A) : cmd A := fun _ s => Ok (a, s).
Definition undefined {A : Type} : cmd A := fun _ _ => UB.
Definition outoffuel {A : Type} : cmd A := fun _ _ => Fuel.
Definition cbind {A B : Type} (m : cmd A) (f : A -> cmd B) : cmd B :=
  fun e s => match m e s with
             | Ok (a, s') => f a e s'
             | Err rc => Err rc
             | UB => UB
             | Fuel => Fuel
             end.
Notation "'run' x <- m ; f" := (cbind m (fun x => f))
  (at level 200, x name, m at level 100, f at level 200, right associativity).
Notation "'run' ' p <- m ; f" := (cbind m (fun p => f))
  (at level 200, p strict pattern, m at level 100, f at level 200, right associativity).
Notation "'call' m ; f" := (cbind m (fun _ => f))
  (at level 200, m at level 100, f at level 200, right associativity).
(** src/misc.h CRY_CHK without the clean-up, or [if ((res = m) != 0) return res]. *)
Definition check (m : cmd Z) (f : cmd Z) : cmd Z :=
  run rc <- m; if rc =? 0 then f else ret rc.
Notation "'chk' m ; f" := (check m f)
  (at level 200, m at level 100, f at level 200, right associativity).
(** a body followed by its clean-up, which does not change the return code *)
Definition finally (body : cmd Z) (cl : cmd unit) : cmd Z :=
  run rc <- body; call cl; ret rc.

Definition get (x : nat) : cmd obj :=
  fun _ s => match mem s x with Some o => Ok (o, s) | None => UB end.
Definition set (x : nat) (o : option obj) : cmd unit :=
  fun _ s => Ok (tt, mkst (fun y => if Nat.eqb y x then o else mem s y) (tick s)).
(** malloc or realloc *)
Definition alloc (k : nat) : cmd (option (list Z)) :=
  fun e s => Ok (if grant e (tick s) then Some (map (junk e (tick s)) (seq 0 k)) else None,
                 mkst (mem s) (S (tick s))).

(** one digit of a buffer *)
Definition rd (x i : nat) : cmd Z :=
  run o <- get x;
  if (i <? length (o_da o))%nat then ret (nth i (o_da o) 0) else undefined.
Definition wr (x i : nat) (v : Z) : cmd unit :=
  run o <- get x;
  if (i <? length (o_da o))%nat then set x (Some (mkobj (o_sg o) (o_us o) (upd (o_da o) i v)))
  else undefined.
Definition set_us (x k : nat) : cmd unit :=
  run o <- get x; set x (Some (mkobj (o_sg o) k (o_da o))).
Definition set_sg (x : nat) (b : bool) : cmd unit :=
  run o <- get x; set x (Some (mkobj b (o_us o) (o_da o))).

(** * src/mpi/mpi_core.c *)

(** lines 26-38 cry_mpi_init, CRY_MPI_QUANTUM 8 (src/mpi/mpi_pvt.h:34-41) *)
Definition init (x : nat) : cmd Z :=
  run d <- alloc 8;
  match d with
  | None => call set x None; ret (-1)
  | Some l => call set x (Some (mkobj false 0 l)); ret 0
  end.

(** lines 43-56 cry_mpi_init_size *)
Definition init_size (x k : nat) : cmd Z :=
  if Nat.eqb k 0 then call set x (Some void); ret 0
  else
    run d <- alloc k;
    match d with
    | None => call set x None; ret (-1)
    | Some l => call set x (Some (mkobj false 0 l)); ret 0
    end.

(** lines 120-131 cry_mpi_clear; reads the structure *)
Definition clear (x : nat) : cmd unit :=
  call get x; set x (Some void).

(** lines 5-24 cry_mpi_grow: realloc keeps the old digits *)
Definition grow (x digs : nat) : cmd Z :=
  run o <- get x;
  if (digs <=? length (o_da o))%nat then ret 0
  else
    let k := (digs + (16 - digs mod 8))%nat in
    run d <- alloc k;
    match d with
    | None => ret (-1)
    | Some l =>
        call set x (Some (mkobj (o_sg o) (o_us o) (o_da o ++ skipn (length (o_da o)) l)));
        ret 0
    end.

(** the test "a->alloc < digs" followed by cry_mpi_grow, as in
    src/mpi/mpi_add_abs.c:16-19 *)
Definition ensure (x digs : nat) : cmd Z :=
  run o <- get x;
  if (length (o_da o) <? digs)%nat then grow x digs else ret 0.

(** lines 150-151: [k] digits from index [i] on *)
Fixpoint move (d s k i : nat) : cmd unit :=
  match k with
  | O => ret tt
  | S k => run v <- rd s i; call wr d i v; move d s k (S i)
  end.

(** lines 133-155 cry_mpi_copy.  Simplification: the loop index is an unsigned
    int there; the digit count is taken to fit. *)
Definition copy (d s : nat) : cmd Z :=
  if Nat.eqb d s then ret 0
  else
    run o <- get s;
    chk ensure d (o_us o);
    call move d s (o_us o) 0;
    call set_us d (o_us o);
    call set_sg d (o_sg o);
    ret 0.

(** lines 157-166 cry_mpi_init_copy *)
Definition init_copy (d s : nat) : cmd Z :=
  chk init d;
  run rc <- copy d s;
  if rc =? 0 then ret 0 else call clear d; ret rc.

(** lines 72-97 cry_mpi_set_int (one digit holds a long) *)
Definition set_int (x : nat) (v : Z) : cmd Z :=
  chk grow x 1;
  if v =? - 2 ^ 63 then undefined
  else
    call set_sg x (v <? 0);
    call set_us x 0;
    if v =? 0 then ret 0
    else call wr x 0 (Z.abs v); call set_us x 1; ret 0.

(** lines 61-70 cry_mpi_init_int *)
Definition init_int (x : nat) (v : Z) : cmd Z :=
  chk init x;
  run rc <- set_int x v;
  if rc <? 0 then call clear x; ret rc else ret rc.

(** include/cry/mpi.h:204-207 cry_mpi_zero *)
Definition zero (x : nat) : cmd unit :=
  run o <- get x; set x (Some (mkobj false 0 (o_da o))).

(** include/cry/mpi.h:181-185 cry_mpi_swap.  Simplification: swapping with an
    indeterminate structure is undefined. *)
Definition swap (x y : nat) : cmd unit :=
  run a <- get x; run b <- get y; call set x (Some b); set y (Some a).

(** src/mpi/mpi_pvt.h:55-59 cry_mpi_adjust *)
Fixpoint adj (l : list Z) (k : nat) : nat :=
  match k with
  | O => O
  | S k' => if nth k' l 0 =? 0 then adj l k' else k
  end.
Definition madjust (x : nat) : cmd unit :=
  run o <- get x;
  if (o_us o <=? length (o_da o))%nat
  then set x (Some (mkobj (o_sg o) (adj (o_da o) (o_us o)) (o_da o)))
  else undefined.

(** src/mpi/mpi_pvt.h:61-64 cry_mpi_set_used *)
Definition set_used (x k : nat) : cmd unit :=
  run o <- get x;
  if (k <=? length (o_da o))%nat
  then set x (Some (mkobj (o_sg o) k (repeat 0 k ++ skipn k (o_da o))))
  else undefined.

(** the number held by an object, for the routines that only read it
    (cry_mpi_cmp, cry_mpi_cmp_abs, cry_mpi_is_zero, cry_mpi_count_bits ...);
    the digits read are those in use *)
Definition peek (x : nat) : cmd mpi :=
  run o <- get x;
  if (o_us o <=? length (o_da o))%nat then ret (view o) else undefined.

(** src/misc.c:31-56 cry_list_init on cry_mpi_init and cry_mpi_clear: [done]
    are the elements initialised so far, last first; on a failure they are
    cleared from the first on *)
Fixpoint clear_list (l : list nat) : cmd unit :=
  match l with
  | [] => ret tt
  | x :: l => call clear x; clear_list l
  end.
Fixpoint init_list (done l : list nat) : cmd Z :=
  match l with
  | [] => ret 0
  | x :: l =>
      run rc <- init x;
      if rc =? 0 then init_list (x :: done) l
      else call clear_list (rev done); ret rc
  end.
(** the locals n, n+1, ..., n+k-1 *)
Definition locals (n k : nat) : list nat := seq n k.

(** src/mpi/mpi_abs.c:3-13 *)
Definition abs (d s : nat) : cmd Z :=
  chk (if Nat.eqb d s then ret 0 else copy d s);
  call set_sg d false; ret 0.

(** * src/mpi/mpi_add_abs.c *)

(** lines 36-46: propagate the carry over the [k] digits left, then copy; the
    result is the carry out (line 40) *)
Fixpoint add_carry_m (r a k i : nat) (c : Z) : cmd Z :=
  if c =? 0 then call move r a k i; ret 0
  else match k with
       | O => ret 1
       | S k =>
           run x <- rd a i;
           let d := (x + 1) mod B in
           call wr r i d;
           add_carry_m r a k (S i) (if d =? 0 then 1 else 0)
       end.

(** lines 27-34: the [m] common digits, then the other [k] of [a] *)
Fixpoint add_loop_m (r a b m k i : nat) (c : Z) : cmd Z :=
  match m with
  | O => add_carry_m r a k i c
  | S m =>
      run x <- rd a i;
      let t := (x + c) mod B in
      let c1 := if t <? c then 1 else 0 in
      run y <- rd b i;
      let l := (t + y) mod B in
      let c2 := c1 + (if l <? t then 1 else 0) in
      call wr r i l;
      add_loop_m r a b m k (S i) c2
  end.

(** lines 13-47, [a] not shorter than [b] *)
Definition add_abs_ord (r a b : nat) : cmd Z :=
  run oa <- get a;
  run ob <- get b;
  let max := o_us oa in
  let min := o_us ob in
  chk ensure r (max + 1);
  call set_us r max;
  call set_sg r false;
  run c <- add_loop_m r a b min (max - min) 0 0;
  if c =? 0 then ret 0
  else call wr r max 1; call set_us r (max + 1); ret 0.

(** lines 3-48 cry_mpi_add_abs *)
Definition add_abs_m (r a b : nat) : cmd Z :=
  run oa <- get a;
  run ob <- get b;
  if (o_us oa <? o_us ob)%nat then add_abs_ord r b a else add_abs_ord r a b.

(** * src/mpi/mpi_sub_abs.c *)

(** lines 37-44; the result is the borrow left (line 41) *)
Fixpoint sub_borrow_m (r a k i : nat) (c : Z) : cmd Z :=
  if c =? 0 then call move r a k i; ret 0
  else match k with
       | O => ret 1
       | S k =>
           run x <- rd a i;
           call wr r i ((x - 1) mod B);
           sub_borrow_m r a k (S i) (if x =? 0 then 1 else 0)
       end.

(** lines 24-31 *)
Fixpoint sub_loop_m (r a b m k i : nat) (c : Z) : cmd Z :=
  match m with
  | O => sub_borrow_m r a k i c
  | S m =>
      run x <- rd a i;
      run y <- rd b i;
      call wr r i ((x - y - c) mod B);
      sub_loop_m r a b m k (S i) (if x =? y then c else if x <? y then 1 else 0)
  end.

(** lines 3-47 cry_mpi_sub_abs *)
Definition sub_abs_m (r a b : nat) : cmd Z :=
  run va <- peek a;
  run vb <- peek b;
  if cmp_abs va vb <? 0 then ret (-1)
  else
    let max := used va in
    let min := used vb in
    chk ensure r max;
    call set_us r max;
    call set_sg r false;
    run c <- sub_loop_m r a b min (max - min) 0 0;
    if c =? 0 then call madjust r; ret 0 else ret (-1).

(** src/mpi/mpi_add.c:31-33, mpi_sub.c:30-32 *)
Definition with_sign (r : nat) (b : bool) (m : cmd Z) : cmd Z :=
  chk m; call set_sg r b; ret 0.

(** src/mpi/mpi_add.c:3-34 cry_mpi_add *)
Definition add_m (r a b : nat) : cmd Z :=
  run va <- peek a;
  run vb <- peek b;
  if Bool.eqb (neg va) (neg vb) then with_sign r (neg va) (add_abs_m r a b)
  else match cmp_abs va vb with
       | Zpos xH => with_sign r (neg va) (sub_abs_m r a b)
       | Zneg xH => with_sign r (neg vb) (sub_abs_m r b a)
       | _ => with_sign r false (call zero r; ret 0)
       end.

(** src/mpi/mpi_sub.c:6-33 cry_mpi_sub *)
Definition sub_m (r a b : nat) : cmd Z :=
  run va <- peek a;
  run vb <- peek b;
  if negb (Bool.eqb (neg va) (neg vb)) then with_sign r (neg va) (add_abs_m r a b)
  else match cmp_abs va vb with
       | Zpos xH => with_sign r (neg va) (sub_abs_m r a b)
       | Zneg xH => with_sign r (negb (neg vb)) (sub_abs_m r b a)
       | _ => with_sign r false (call zero r; ret 0)
       end.

(** * src/mpi/mpi_shl.c *)

(** lines 24-25: the digits [k-1] .. 0 move up by [n] *)
Fixpoint up (a n k : nat) : cmd unit :=
  match k with
  | O => ret tt
  | S k => run v <- rd a k; call wr a (k + n) v; up a n k
  end.
(** lines 29-30 and src/mpi/mpi_shr.c:22-23: [k] zeroes from [i] on *)
Fixpoint fill (a k i : nat) : cmd unit :=
  match k with
  | O => ret tt
  | S k => call wr a i 0; fill a k (S i)
  end.

(** lines 6-32 cry_mpi_shld *)
Definition shld_m (a n : nat) : cmd Z :=
  run o <- get a;
  if (Nat.eqb n 0 || Nat.eqb (o_us o) 0)%bool then ret 0
  else
    chk ensure a (o_us o + n);
    call set_us a (o_us o + n);
    call up a n (o_us o);
    call fill a n 0;
    ret 0.

(** lines 73-78; the result is the final carry *)
Fixpoint shl_loop_m (c k i : nat) (d r : Z) : cmd Z :=
  match k with
  | O => ret r
  | S k =>
      run x <- rd c i;
      call wr c i (Z.lor (Z.shiftl x d mod B) r);
      shl_loop_m c k (S i) d (Z.land (Z.shiftr x (64 - d)) (Z.shiftl 1 d - 1))
  end.

(** lines 37-86 cry_mpi_shl *)
Definition shl_m (c a : nat) (n : Z) : cmd Z :=
  chk (if Nat.eqb a c then ret 0 else copy c a);
  run va <- peek a;
  if ((n =? 0) || is_zero va)%bool then ret 0
  else
    run o <- get c;
    chk ensure c (o_us o + Z.to_nat (n / 64) + 1);
    chk (if 64 <=? n then shld_m c (Z.to_nat (n / 64)) else ret 0);
    let d := n mod 64 in
    call (if d =? 0 then ret tt
         else run o <- get c;
              run r <- shl_loop_m c (o_us o) 0 d 0;
              if r =? 0 then ret tt
              else call wr c (o_us o) r; set_us c (o_us o + 1));
    call madjust c;
    ret 0.

(** * src/mpi/mpi_shr.c *)

(** lines 18-19: [k] digits from [i] on *)
Fixpoint down (a n k i : nat) : cmd unit :=
  match k with
  | O => ret tt
  | S k => run v <- rd a (i + n); call wr a i v; down a n k (S i)
  end.

(** lines 3-28 cry_mpi_shrd *)
Definition shrd_m (a n : nat) : cmd Z :=
  run o <- get a;
  if (Nat.eqb n 0 || Nat.eqb (o_us o) 0)%bool then ret 0
  else if (o_us o <=? n)%nat then call zero a; ret 0
  else
    call down a n (o_us o - n) 0;
    call fill a n (o_us o - n);
    call set_us a (o_us o - n);
    ret 0.

(** lines 59-70: digits [k-1] .. 0, carry [r] *)
Fixpoint shr_loop_m (c k : nat) (D r : Z) : cmd unit :=
  match k with
  | O => ret tt
  | S k =>
      run x <- rd c k;
      call wr c k (Z.lor (Z.shiftr x D) (Z.shiftl r (64 - D) mod B));
      shr_loop_m c k D (Z.land x (Z.shiftl 1 D - 1))
  end.

(** lines 33-74 cry_mpi_shr *)
Definition shr_m (c a : nat) (n : Z) : cmd Z :=
  chk (if Nat.eqb a c then ret 0 else copy c a);
  run va <- peek a;
  if ((n =? 0) || is_zero va)%bool then ret 0
  else
    call (if 64 <=? n then shrd_m c (Z.to_nat (n / 64)) else ret 0);
    let d := n mod 64 in
    call (if d =? 0 then ret tt
         else run o <- get c; shr_loop_m c (o_us o) d 0);
    call madjust c;
    ret 0.
