(** Memory-level model of division (src/mpi/mpi_div_abs.c, mpi_div.c), shipped
    configuration (CRY_MPI_DIV_SMALL not defined).  A destination that may be
    NULL is an option.  Locals, from [n] on: q t1 t2 x y. *)
From Verif Require Import Base MpiModel MpiMulModel MpiDivModel MemModel MemMulModel.

(** mpi_div_abs.c:126-129; [d] is the index n-t *)
Fixpoint div_top_m (fuel n d : nat) : cmd Z :=
  run x <- peek (n + 3);
  run y <- peek (n + 4);
  if cmp x y =? -1 then ret 0
  else match fuel with
       | O => outoffuel
       | S f =>
           run v <- rd n d;
           call wr n d ((v + 1) mod B);
           chk sub_m (n + 3) (n + 3) (n + 4);
           div_top_m f n d
       end.

(** mpi_div_abs.c:162-177 *)
Fixpoint div_refine_m (fuel n i t : nat) : cmd Z :=
  let k := (i - t - 1)%nat in
  match fuel with
  | O => outoffuel
  | S f =>
      run d <- rd n k;
      call wr n k ((d - 1) mod B);
      call zero (n + 1);
      run y0 <- (if Nat.eqb t 0 then ret 0 else rd (n + 4) (t - 1));
      call wr (n + 1) 0 y0;
      run y1 <- rd (n + 4) t;
      call wr (n + 1) 1 y1;
      call set_us (n + 1) 2;
      run d <- rd n k;
      chk mul_dig_m (n + 5) (n + 1) (n + 1) d;
      run x0 <- (if (i <=? 1)%nat then ret 0 else rd (n + 3) (i - 2));
      call wr (n + 2) 0 x0;
      run x1 <- (if Nat.eqb i 0 then ret 0 else rd (n + 3) (i - 1));
      call wr (n + 2) 1 x1;
      run x2 <- rd (n + 3) i;
      call wr (n + 2) 2 x2;
      call set_us (n + 2) 3;
      run v1 <- peek (n + 1);
      run v2 <- peek (n + 2);
      if cmp_abs v1 v2 =? 1 then div_refine_m f n i t else ret 0
  end.

(** mpi_div_abs.c:144-193 *)
Definition div_step_m (n i t : nat) : cmd Z :=
  let k := (i - t - 1)%nat in
  (run xi <- rd (n + 3) i;
   run yt <- rd (n + 4) t;
   call (if xi =? yt then wr n k (B - 1)
         else run xp <- rd (n + 3) (i - 1);
              if yt =? 0 then undefined
              else let tmp := Z.lor (Z.shiftl xi 64) xp / yt in
                   wr n k (if B - 1 <? tmp then B - 1 else tmp));
   run d <- rd n k;
   call wr n k ((d + 1) mod B);
   chk div_refine_m 8 n i t;
   run d <- rd n k;
   chk mul_dig_m (n + 5) (n + 1) (n + 4) d;
   chk shld_m (n + 1) k;
   chk sub_m (n + 3) (n + 3) (n + 1);
   run o <- get (n + 3);
   if o_sg o then
     chk copy (n + 1) (n + 4);
     chk shld_m (n + 1) k;
     chk add_m (n + 3) (n + 3) (n + 1);
     run d <- rd n k;
     call wr n k ((d - 1) mod B);
     ret 0
   else ret 0).

(** mpi_div_abs.c:135-194, i = t+k *)
Fixpoint div_loop_m (k n t : nat) : cmd Z :=
  match k with
  | O => ret 0
  | S k' =>
      run o <- get (n + 3);
      if (o_us o <? t + k)%nat then div_loop_m k' n t
      else chk div_step_m n (t + k) t; div_loop_m k' n t
  end.

(** mpi_div_abs.c:107-210.  The difference n-t is taken to wrap to undefined
    behaviour if it is negative. *)
Definition div_main_m (n : nat) (rq rr : option nat) : cmd Z :=
  (call set_sg (n + 3) false;
   call set_sg (n + 4) false;
   run vy <- peek (n + 4);
   let bits := count_bits vy mod 64 in
   let norm := if bits <? 63 then 63 - bits else 0 in
   chk (if bits <? 63 then chk shl_m (n + 3) (n + 3) norm; shl_m (n + 4) (n + 4) norm else ret 0);
   run ox <- get (n + 3);
   run oy <- get (n + 4);
   let nn := (o_us ox - 1)%nat in
   let t := (o_us oy - 1)%nat in
   if (nn <? t)%nat then undefined
   else
     chk shld_m (n + 4) (nn - t);
     chk div_top_m 4 n (nn - t);
     call shrd_m (n + 4) (nn - t);
     chk div_loop_m (nn - t) n t;
     call match rq with
          | None => ret tt
          | Some q => call madjust n; call swap n q; set_sg q false
          end;
     call match rr with
          | None => ret tt
          | Some r => call shr_m (n + 3) (n + 3) norm; call swap (n + 3) r; set_sg r false
          end;
     ret 0).

(** mpi_div_abs.c:77-218; each [finally] is one of the labels e1 to e5 *)
Definition div_abs_m (n : nat) (rq rr : option nat) (a b : nat) : cmd Z :=
  run va <- peek a;
  run vb <- peek b;
  if is_zero vb then ret (-1)
  else if cmp_abs va vb <? 0 then
    run rc <- match rr with None => ret 0 | Some r => copy r a end;
    call match rq with None => ret tt | Some q => zero q end;
    ret rc
  else
    chk init_size n (used va + 2);
    call set_used n (used va + 2);
    finally
      (chk init_size (n + 1) 2;
       finally
         (chk init_size (n + 2) 3;
          finally
            (chk init_copy (n + 3) a;
             finally
               (chk init_copy (n + 4) b;
                finally (div_main_m n rq rr) (clear (n + 4)))
               (clear (n + 3)))
            (clear (n + 2)))
         (clear (n + 1)))
      (clear n).

(** mpi_div.c:3-26.  The local [n] is the constant one; the return code of the
    first subtraction is overwritten by that of the second, as in the code. *)
Definition div_m (n : nat) (rq rr : option nat) (a b : nat) : cmd Z :=
  run va <- peek a;
  run vb <- peek b;
  chk div_abs_m n rq rr a b;
  if xorb (neg va) (neg vb) then
    match rr with
    | None => undefined
    | Some r =>
        run vr <- peek r;
        if is_zero vr then ret 0
        else
          run rc <- match rq with
                    | None => ret 0
                    | Some q =>
                        call set n (Some (mkobj false 1 [1]));
                        call set_sg q true;
                        finally (sub_m q q n) (set n None)
                    end;
          sub_abs_m r b r
    end
  else ret 0.

(** include/cry/mpi.h:129 *)
Definition mod_m (n r a b : nat) : cmd Z := div_m n None (Some r) a b.
