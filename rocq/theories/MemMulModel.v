(** Memory-level model of multiplication and squaring (src/mpi/mpi_mul*.c,
    mpi_sqr*.c), shipped configuration.  [n] is the first number free for the
    automatic variables of the routine. *)
From Verif Require Import Base MpiModel MpiMulModel MemModel.

(** * src/mpi/mpi_mul_comba.c *)

(** lines 49-54 *)
Fixpoint comba_col_m (a b tx ty k : nat) (c : Z * Z * Z) : cmd (Z * Z * Z) :=
  match k with
  | O => ret c
  | S k =>
      run x <- rd a tx;
      run y <- rd b ty;
      comba_col_m a b (S tx) (Nat.pred ty) k (muladd c x y)
  end.
(** lines 28-58: the columns from [ix] on, [k] of them *)
Fixpoint comba_loop_m (d a b ua ub k ix : nat) (c1 c2 : Z) : cmd unit :=
  match k with
  | O => ret tt
  | S k =>
      let ty := Nat.min ix (ub - 1) in
      let tx := (ix - ty)%nat in
      let iy := Nat.min (ua - tx) (ty + 1) in
      run ' (d0, d1, d2) <- comba_col_m a b tx ty iy (c1, c2, 0);
      call wr d ix d0;
      comba_loop_m d a b ua ub k (S ix) d1 d2
  end.
(** lines 17-26 and 60-63 of mpi_mul_comba.c, lines 18-28 and 84-87 of
    mpi_sqr_comba.c: the destination is [r], or a temporary that is swapped in
    if [r] is an operand; [fillin] writes the digits *)
Definition into (n r pa : nat) (same : bool) (fillin : nat -> cmd unit) : cmd Z :=
  if same then
    chk init_size n pa;
    call set_used n pa;
    call fillin n;
    call swap r n;
    call clear n;
    call madjust r;
    ret 0
  else
    chk grow r pa;
    call set_used r pa;
    call fillin r;
    call madjust r;
    ret 0.
(** lines 4-66 *)
Definition mul_comba_m (n r a b : nat) : cmd Z :=
  run va <- peek a;
  run vb <- peek b;
  if (is_zero va || is_zero vb)%bool then call zero r; ret 0
  else
    into n r (used va + used vb) (Nat.eqb r a || Nat.eqb r b)
      (fun d => comba_loop_m d a b (used va) (used vb) (used va + used vb) 0 0 0).

(** * src/mpi/mpi_sqr_comba.c *)

(** lines 30-82 *)
Fixpoint sqr_loop_m (d a ua k ix : nat) (c1 c2 : Z) : cmd unit :=
  match k with
  | O => ret tt
  | S k =>
      let ty := Nat.min ix (ua - 1) in
      let tx := (ix - ty)%nat in
      let iy := Nat.min (ua - tx) (ty + 1) in
      let iy := Nat.min iy (Nat.div2 (ty + 1 - tx)) in
      run c <- (if Nat.eqb iy 0 then ret (c1, c2, 0)
                else run t <- comba_col_m a a tx ty iy (0, 0, 0); ret (dbl_add (c1, c2, 0) t));
      run c <- (if Nat.even ix
                then run x <- rd a (Nat.div2 ix); ret (muladd c x x)
                else ret c);
      let '(d0, d1, d2) := c in
      call wr d ix d0;
      sqr_loop_m d a ua k (S ix) d1 d2
  end.
(** lines 4-91 *)
Definition sqr_comba_m (n r a : nat) : cmd Z :=
  run va <- peek a;
  if is_zero va then call zero r; ret 0
  else
    into n r (used va + used va) (Nat.eqb r a)
      (fun d => sqr_loop_m d a (used va) (used va + used va) 0 0 0).

(** * Helpers of the recursive routines *)

(** cry_mpi_init_size on several locals with CRY_CHK: the ones initialised
    before a failure are cleared, last first (src/mpi/mpi_mul_karatsuba.c:23-29
    and 64-71, mpi_sqr_karatsuba.c:20-24 and 52-57) *)
Fixpoint init_sizes (done : list nat) (l : list (nat * nat)) : cmd Z :=
  match l with
  | [] => ret 0
  | (x, k) :: l =>
      run rc <- init_size x k;
      if rc =? 0 then init_sizes (x :: done) l
      else call clear_list done; ret rc
  end.

(** memcpy of [k] digits of [a] from index [off] to the front of [d]
    (mpi_mul_karatsuba.c:35-40), after the count of [d] has been set
    (lines 32-34).  Simplification: the digit counts are set one by one, each
    just before its copy. *)
Definition take (d a off k : nat) : cmd unit :=
  run o <- get a;
  run p <- get d;
  if ((off + k <=? length (o_da o)) && (k <=? length (o_da p)))%nat%bool
  then set d (Some (mkobj (o_sg p) k (firstn k (skipn off (o_da o)) ++ skipn k (o_da p))))
  else undefined.

(** src/mpi/mpi_mul_toom3.c:4-33 *)
Definition mod_2e_m (r a : nat) (e : Z) : cmd Z :=
  if e =? 0 then call zero r; ret 0
  else
    chk copy r a;
    run o <- get a;
    if 64 * Z.of_nat (o_us o) <=? e then ret 0
    else
      let m := Z.to_nat (e / 64) in
      let x := if e mod 64 =? 0 then m else S m in
      run p <- get r;
      call fill r (o_us p - x) x;
      run d <- rd r m;
      call wr r m (Z.land d (Z.shiftl 1 (e mod 64) - 1));
      call madjust r;
      ret 0.

(** src/mpi/mpi_mul_toom3.c:57-76: digits [k-1] .. 0 *)
Fixpoint div3_loop_m (q a k : nat) (w : Z) : cmd unit :=
  match k with
  | O => ret tt
  | S k =>
      run d <- rd a k;
      let w := Z.lor (Z.shiftl w 64) d in
      if 3 <=? w then
        let t := Z.shiftr (w * (B / 3)) 64 in
        match div3_fix 4 t (w - (t + t + t)) with
        | None => outoffuel
        | Some (t, w) => call wr q k (t mod B); div3_loop_m q a k w
        end
      else call wr q k 0; div3_loop_m q a k w
  end.
(** src/mpi/mpi_mul_toom3.c:39-82 *)
Definition div3_m (n a : nat) : cmd Z :=
  run o <- get a;
  chk init_size n (o_us o);
  call set_us n (o_us o);
  call set_sg n (o_sg o);
  call div3_loop_m n a (o_us o) 0;
  call madjust n;
  call swap n a;
  call clear n;
  ret 0.

(** src/mpi/mpi_mul.c:3-12; the sign is computed before the call *)
Definition mul_gen_m (mulabs : nat -> nat -> nat -> nat -> cmd Z) (n r a b : nat) : cmd Z :=
  run oa <- get a;
  run ob <- get b;
  let sg := xorb (o_sg oa) (o_sg ob) in
  chk mulabs n r a b;
  run vr <- peek r;
  if is_zero vr then ret 0 else call set_sg r sg; ret 0.

(** * Straight-line code.  The recursive routines are sequences of checked calls
    that write local objects; an operand is a local or an object of the
    caller. *)
Inductive arg : Type := L (i : nat) | G (x : nat).
Inductive ins : Type :=
| IMulAbs (d : nat) (a b : arg)
| IMul (d : nat) (a b : arg)
| ISqr (d : nat) (a : arg)
| IAdd (d : nat) (a b : arg)
| ISub (d : nat) (a b : arg)
| ICopy (d : nat) (a : arg)
| IMod2e (d : nat) (a : arg) (e : Z)
| IShld (d k : nat)
| IShrd (d k : nat)
| IShl (d : nat) (a : arg) (k : Z)
| IShr (d : nat) (a : arg) (k : Z)
| IDiv3 (d : nat).

(** [n] is the first local, [m] the first number free for callees. *)
Definition at_ (n : nat) (x : arg) : nat := match x with L i => (n + i)%nat | G x => x end.
Definition exec (mulabs : nat -> nat -> nat -> nat -> cmd Z) (sq : nat -> nat -> nat -> cmd Z)
    (n m : nat) (i : ins) : cmd Z :=
  match i with
  | IMulAbs d a b => mulabs m (n + d) (at_ n a) (at_ n b)
  | IMul d a b => mul_gen_m mulabs m (n + d) (at_ n a) (at_ n b)
  | ISqr d a => sq m (n + d) (at_ n a)
  | IAdd d a b => add_m (n + d) (at_ n a) (at_ n b)
  | ISub d a b => sub_m (n + d) (at_ n a) (at_ n b)
  | ICopy d a => copy (n + d) (at_ n a)
  | IMod2e d a e => mod_2e_m (n + d) (at_ n a) e
  | IShld d k => shld_m (n + d) k
  | IShrd d k => shrd_m (n + d) k
  | IShl d a k => shl_m (n + d) (at_ n a) k
  | IShr d a k => shr_m (n + d) (at_ n a) k
  | IDiv3 d => div3_m m (n + d)
  end%nat.
Fixpoint execs (mulabs : nat -> nat -> nat -> nat -> cmd Z) (sq : nat -> nat -> nat -> cmd Z)
    (n m : nat) (l : list ins) : cmd Z :=
  match l with
  | [] => ret 0
  | i :: l => chk exec mulabs sq n m i; execs mulabs sq n m l
  end.

(** the squaring routine is not called in the multiplication routines, nor the
    other way round *)
Definition nosq (n r a : nat) : cmd Z := undefined.
Definition nomul (n r a b : nat) : cmd Z := undefined.

(** * src/mpi/mpi_mul_karatsuba.c:5-72.  Locals, in this order:
    x0 x1 y0 y1 z0 z1 z2. *)
Definition kara_ops (hB : nat) : list ins :=
  [ IMulAbs 4 (L 0) (L 2);
    IMulAbs 6 (L 1) (L 3);
    IAdd 5 (L 1) (L 0);
    IAdd 0 (L 3) (L 2);
    IMulAbs 5 (L 5) (L 0);
    IAdd 0 (L 4) (L 6);
    ISub 5 (L 5) (L 0);
    IShld 5 hB;
    IShld 6 (2 * hB);
    IAdd 5 (L 4) (L 5) ].
Definition karatsuba_m (mulabs : nat -> nat -> nat -> nat -> cmd Z) (n r a b : nat) : cmd Z :=
  run va <- peek a;
  run vb <- peek b;
  if (is_zero va || is_zero vb)%bool then call zero r; ret 0
  else
    let hB := Nat.div2 (Nat.min (used va) (used vb)) in
    let B := (2 * hB)%nat in
    chk init_sizes [] [(n, hB); (n + 1, used va - hB); (n + 2, hB); (n + 3, used vb - hB);
                       (n + 4, B); (n + 5, B); (n + 6, B)]%nat;
    finally
      (call take n a 0 hB;
       call take (n + 2) b 0 hB;
       call take (n + 1) a hB (used va - hB);
       call take (n + 3) b hB (used vb - hB);
       call madjust n;
       call madjust (n + 2);
       chk execs mulabs nosq n (n + 7) (kara_ops hB);
       add_m r (n + 5) (n + 6))
      (clear_list [n + 6; n + 5; n + 4; n + 3; n + 2; n + 1; n])%nat.

(** * src/mpi/mpi_mul_toom3.c:90-220.  Locals, in this order:
    w0 w1 w2 w3 w4 a0 a1 a2 b0 b1 b2 t1 t2. *)
Definition toom_split (a b k : nat) : list ins :=
  let e := 64 * Z.of_nat k in
  [ IMod2e 5 (G a) e;
    ICopy 6 (G a);
    IShrd 6 k;
    IMod2e 6 (L 6) e;
    ICopy 7 (G a);
    IShrd 7 (k * 2);
    IMod2e 8 (G b) e;
    ICopy 9 (G b);
    IShrd 9 k;
    IMod2e 9 (L 9) e;
    ICopy 10 (G b);
    IShrd 10 (k * 2) ].
Definition toom_eval : list ins :=
  [ IAdd 11 (L 5) (L 7);
    IAdd 12 (L 8) (L 10);
    IAdd 1 (L 11) (L 6);
    IAdd 2 (L 12) (L 9);
    IMul 1 (L 1) (L 2);
    ISub 11 (L 11) (L 6);
    ISub 12 (L 12) (L 9);
    IMul 2 (L 11) (L 12);
    IAdd 11 (L 11) (L 7);
    IShl 11 (L 11) 1;
    ISub 11 (L 11) (L 5);
    IAdd 12 (L 12) (L 10);
    IShl 12 (L 12) 1;
    ISub 12 (L 12) (L 8);
    IMul 3 (L 11) (L 12);
    IMul 0 (L 5) (L 8);
    IMul 4 (L 7) (L 10) ].
Definition toom_interp (k : nat) : list ins :=
  [ ISub 3 (L 3) (L 1);
    IDiv3 3;
    ISub 1 (L 1) (L 2);
    IShr 1 (L 1) 1;
    ISub 2 (L 2) (L 0);
    ISub 3 (L 2) (L 3);
    IShr 3 (L 3) 1;
    IShl 11 (L 4) 1;
    IAdd 3 (L 3) (L 11);
    IAdd 2 (L 2) (L 1);
    ISub 2 (L 2) (L 4);
    ISub 1 (L 1) (L 3);
    IShld 1 (1 * k);
    IShld 2 (2 * k);
    IShld 3 (3 * k);
    IShld 4 (4 * k) ].
Definition toom_sum : list ins :=
  [ IAdd 11 (L 2) (L 3);
    IAdd 11 (L 4) (L 11) ].
Definition toom3_m (mulabs : nat -> nat -> nat -> nat -> cmd Z) (n r a b : nat) : cmd Z :=
  run va <- peek a;
  run vb <- peek b;
  if (is_zero va || is_zero vb)%bool then call zero r; ret 0
  else
    chk init_list [] (locals n 13);
    let k := (Nat.min (used va) (used vb) / 3)%nat in
    finally
      (chk execs mulabs nosq n (n + 13) (toom_split a b k ++ toom_eval ++ toom_interp k);
       chk add_m r n (n + 1);
       chk execs mulabs nosq n (n + 13) toom_sum;
       add_m r (n + 11) r)
      (clear_list (locals n 13)).

(** src/mpi/mpi_mul_abs.c:8-25 *)
Fixpoint mul_abs_m (fuel : nat) (n r a b : nat) : cmd Z :=
  match fuel with
  | O => outoffuel
  | S f =>
      run va <- peek a;
      run vb <- peek b;
      let m := Nat.min (used va) (used vb) in
      if (300 <? m)%nat then toom3_m (mul_abs_m f) n r a b
      else if (64 <? m)%nat then karatsuba_m (mul_abs_m f) n r a b
      else mul_comba_m n r a b
  end.

(** src/mpi/mpi_mul.c:3-12; [fuel] bounds the depth of the recursion by the
    number of digits, as in MpiMulModel.v *)
Definition mul_m (n r a b : nat) : cmd Z :=
  run va <- peek a;
  run vb <- peek b;
  mul_gen_m (mul_abs_m (S (Nat.min (used va) (used vb)))) n r a b.

(** src/mpi/mpi_mul.c:15-24: the one-digit number is the local [n] *)
Definition mul_dig_m (n r a : nat) (b : Z) : cmd Z :=
  call set n (Some (mkobj false 1 [b]));
  finally (mul_m (n + 1) r a n) (set n None).

(** * src/mpi/mpi_sqr_karatsuba.c:3-59.  Locals, in this order:
    x0 x1 z0 z1 z2. *)
Definition sqr_ops (hB : nat) : list ins :=
  [ ISqr 2 (L 0);
    ISqr 4 (L 1);
    IAdd 3 (L 1) (L 0);
    ISqr 3 (L 3);
    IAdd 0 (L 2) (L 4);
    ISub 3 (L 3) (L 0);
    IShld 3 hB;
    IShld 4 (2 * hB);
    IAdd 3 (L 2) (L 3) ].
Definition sqr_karatsuba_m (sq : nat -> nat -> nat -> cmd Z) (n r a : nat) : cmd Z :=
  run va <- peek a;
  if is_zero va then call zero r; ret 0
  else
    let hB := Nat.div2 (used va) in
    let B := (2 * hB)%nat in
    chk init_sizes [] [(n, hB); (n + 1, used va - hB); (n + 2, B); (n + 3, B); (n + 4, B)]%nat;
    finally
      (call take n a 0 hB;
       call take (n + 1) a hB (used va - hB);
       call madjust n;
       chk execs nomul sq n (n + 5) (sqr_ops hB);
       add_m r (n + 3) (n + 4))
      (clear_list [n + 4; n + 3; n + 2; n + 1; n])%nat.
(** src/mpi/mpi_sqr.c:7-19 *)
Fixpoint sqr_abs_m (fuel : nat) (n r a : nat) : cmd Z :=
  match fuel with
  | O => outoffuel
  | S f =>
      run va <- peek a;
      if (64 <? used va)%nat then sqr_karatsuba_m (sqr_abs_m f) n r a
      else sqr_comba_m n r a
  end.
Definition sqr_m (n r a : nat) : cmd Z :=
  run va <- peek a;
  sqr_abs_m (S (used va)) n r a.
