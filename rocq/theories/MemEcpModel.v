(** Memory-level model of the elliptic curve code (src/ecp/ecp_core.c, ecp_list.c,
    ecp_add.c, ecp_dbl.c, ecp_mul.c) and of ECDH and ECDSA (src/crypt/ecdh.c,
    ecdsa.c): results that may be operands, allocations that may be refused.
    [n] is the first number free for the automatic variables of the routine.

    A point (include/cry/ecp.h:26-30) is named by the number [x] of its first
    coordinate; its objects are [x], [x+1], [x+2].  A group (ecp.h:38-44) is named
    by the number [g] of its modulus; a, b, the base point and its order are
    [g+1], [g+2], [g+3] to [g+5], [g+6].
    Simplification: the digits of a named curve lie in constant tables
    (src/ecp/ecp_curves.c:605-611, alloc is 0); here they are buffers like
    others.  The library only reads them. *)
From Verif Require Import Base MpiModel MpiMulModel MpiDivModel MpiAlgModel MpiIOModel MemModel MemMulModel MemDivModel MemAlgModel.

(** * src/ecp/ecp_core.c, ecp_list.c and include/cry/ecp.h *)

(** the three objects of a point *)
Definition coords (x : nat) : list nat := [x; x + 1; x + 2]%nat.
(** include/cry/ecp.h:77-78 cry_ecp_is_zero *)
Definition pt_zero_m (x : nat) : cmd bool := run v <- peek (x + 2); ret (is_zero v).
(** include/cry/ecp.h:80-84 cry_ecp_set_zero; the return codes are ignored *)
Definition set_zero_m (x : nat) : cmd unit :=
  call MemModel.set_int x 1; call MemModel.set_int (x + 1) 1; call MemModel.set_int (x + 2) 0; ret tt.
(** include/cry/ecp.h:86-90 cry_ecp_swap *)
Definition pt_swap_m (x y : nat) : cmd unit :=
  call swap x y; call swap (x + 1) (y + 1); swap (x + 2) (y + 2).
(** src/ecp/ecp_core.c:3-11 cry_ecp_init *)
Definition pt_init_m (x : nat) : cmd Z :=
  chk init_list [] (coords x); call set_zero_m x; ret 0.
(** src/ecp/ecp_core.c:13-16 cry_ecp_clear *)
Definition pt_clear_m (x : nat) : cmd unit := clear_list (coords x).
(** src/ecp/ecp_core.c:33-42 cry_ecp_copy *)
Definition pt_copy_m (d x : nat) : cmd Z :=
  chk copy d x; chk copy (d + 1) (x + 1); copy (d + 2) (x + 2).
(** src/ecp/ecp_add.c:16-19 and ecp_dbl.c:12-13: a copy, unless in place *)
Definition pt_move_m (d x : nat) : cmd Z := if Nat.eqb d x then ret 0 else pt_copy_m d x.
(** src/misc.c:31-56 cry_list_init and 58-67 cry_list_clear on points *)
Fixpoint pt_clear_list (l : list nat) : cmd unit :=
  match l with
  | [] => ret tt
  | x :: l => call pt_clear_m x; pt_clear_list l
  end.
Fixpoint pt_init_list (done l : list nat) : cmd Z :=
  match l with
  | [] => ret 0
  | x :: l =>
      run rc <- pt_init_m x;
      if rc =? 0 then pt_init_list (x :: done) l
      else call pt_clear_list (rev done); ret rc
  end.

(** * src/ecp/ecp_dbl.c and ecp_add.c *)

(** ecp_add.c:48-59, ecp_dbl.c:34-45: the coordinates from lambda; [x2] is the
    first coordinate of the second point.  lambda is the local [l], the result
    the point [l+1]; [m] is the first number free for callees. *)
Definition third_m (m l p1 x2 g : nat) : cmd Z :=
  let x := (l + 1)%nat in
  let y := (l + 2)%nat in
  chk sqr_m m x l;
  chk mod_m m x x g;
  chk sub_m x x p1;
  chk sub_m x x x2;
  chk mod_m m x x g;
  chk sub_m y p1 x;
  chk mul_m m y y l;
  chk mod_m m y y g;
  chk sub_m y y (p1 + 1);
  chk mod_m m y y g;
  MemModel.set_int (l + 3) 1.

(** ecp_dbl.c:6-51.  Locals: num, den, lam, r. *)
Definition ecp_dbl_m (n pr p1 g : nat) : cmd Z :=
  run z <- pt_zero_m p1;
  if (z : bool) then pt_move_m pr p1
  else
    chk init_list [] (locals n 6);
    finally
      (chk MemModel.set_int n 3;
       chk mul_m (n + 6) n n p1;
       chk mul_m (n + 6) n n p1;
       chk mod_m (n + 6) n n g;
       chk add_m n n (g + 1);
       chk mod_m (n + 6) n n g;
       chk MemModel.set_int (n + 1) 2;
       chk mul_m (n + 6) (n + 1) (n + 1) (p1 + 1);
       chk inv_m (n + 6) (n + 1) (n + 1) g;
       chk mod_m (n + 6) (n + 1) (n + 1) g;
       chk mul_m (n + 6) (n + 2) n (n + 1);
       chk mod_m (n + 6) (n + 1) (n + 1) g;
       chk third_m (n + 6) (n + 2) p1 p1 g;
       call pt_swap_m pr (n + 3);
       ret 0)
      (clear_list (locals n 6)).

(** ecp_add.c:7-67.  Locals: num, den; then lam, r. *)
Definition ecp_add_m (n pr p1 p2 g : nat) : cmd Z :=
  run z1 <- pt_zero_m p1;
  if (z1 : bool) then pt_move_m pr p2
  else
    run z2 <- pt_zero_m p2;
    if (z2 : bool) then pt_move_m pr p1
    else
      chk init_list [] (locals n 2);
      finally
        (chk sub_m n (p2 + 1) (p1 + 1);
         chk mod_m (n + 6) n n g;
         chk sub_m (n + 1) p2 p1;
         chk mod_m (n + 6) (n + 1) (n + 1) g;
         run den <- peek (n + 1);
         if is_zero den then
           run num <- peek n;
           if is_zero num then ecp_dbl_m (n + 6) pr p1 g
           else call set_zero_m pr; ret 0
         else
           chk init_list [] (locals (n + 2) 4);
           finally
             (chk inv_m (n + 6) (n + 1) (n + 1) g;
              chk mul_m (n + 6) (n + 2) n (n + 1);
              chk mod_m (n + 6) (n + 2) (n + 2) g;
              chk third_m (n + 6) (n + 2) p1 p2 g;
              call pt_swap_m pr (n + 3);
              ret 0)
             (clear_list (locals (n + 2) 4)))
        (clear_list (locals n 2)).

(** * src/ecp/ecp_mul.c:12-107.  Locals: r, then the window, eight points on the
    heap.  Simplification: the array of the window is not an object, so that its
    release (line 105) is not seen. *)
Definition win_at (n i : nat) : nat := (n + 3 + 3 * i)%nat.
(** lines 31-37: [k] points are left, [i] are initialised; rollback from the last
    one down *)
Fixpoint win_init_m (n k i : nat) : cmd Z :=
  match k with
  | O => ret 0
  | S k =>
      run rc <- pt_init_m (win_at n i);
      if rc =? 0 then win_init_m n k (S i)
      else call pt_clear_list (rev (map (win_at n) (seq 0 i))); ret rc
  end.
(** lines 42-48: win[i+1] = win[i] + P *)
Fixpoint win_next_m (n p1 g k i : nat) : cmd Z :=
  match k with
  | O => ret 0
  | S k => chk ecp_add_m (n + 27) (win_at n (S i)) (win_at n i) p1 g; win_next_m n p1 g k (S i)
  end.
(** lines 38-48 *)
Definition win_m (n p1 g : nat) : cmd Z :=
  let w := win_at n 0 in
  chk pt_copy_m w p1;
  chk ecp_dbl_m (n + 27) w w g;
  chk ecp_dbl_m (n + 27) w w g;
  chk ecp_dbl_m (n + 27) w w g;
  win_next_m n p1 g 7 0.
(** lines 62 and 76 *)
Definition kbit_m (k i j : nat) : cmd bool :=
  run d <- rd k i; ret (negb (Z.land d (Z.shiftl 1 (Z.of_nat j)) =? 0)).
(** lines 59-60 and 73-74 *)
Definition dbl_if_m (n g : nat) (paf : bool) : cmd Z := if paf then ret 0 else ecp_dbl_m (n + 27) n n g.
(** lines 82-87 and 90-95 *)
Definition add_if_m (n q g : nat) (paf : bool) : cmd Z := if paf then pt_copy_m n q else ecp_add_m (n + 27) n n q g.
(** lines 67-78: four bits; the result is the return code with w, i and j *)
Fixpoint win_bits_m (fuel n k g : nat) (paf : bool) (w : Z) (i j : nat) : cmd (Z * (Z * nat * nat)) :=
  match fuel with
  | O => outoffuel
  | S f =>
      if w <? 8 then
        run ' (i, j) <- match j with
                        | O => match i with O => undefined | S i' => ret (i', 64%nat) end
                        | _ => ret (i, j)
                        end;
        let j := (j - 1)%nat in
        run rc <- dbl_if_m n g paf;
        if negb (rc =? 0) then ret (rc, (w, i, j))
        else
          run b <- kbit_m k i j;
          win_bits_m f n k g paf (Z.lor (Z.shiftl w 1) (if (b : bool) then 1 else 0)) i j
      else ret (0, (w, i, j))
  end.
(** lines 53-98, as EcpModel.mul_loop *)
Fixpoint mul_loop_m (fuel n k p1 g : nat) (paf : bool) (i j : nat) : cmd Z :=
  match fuel with
  | O => outoffuel
  | S f =>
      match j with
      | O => match i with O => ret 0 | S i' => mul_loop_m f n k p1 g paf i' 64 end
      | S j =>
          chk dbl_if_m n g paf;
          run b <- kbit_m k i j;
          if (b : bool) then
            if (negb (Nat.eqb i 0) || Nat.leb 3 j)%bool then
              run ' (rc, (w, i, j)) <- win_bits_m 5 n k g paf 1 i j;
              if negb (rc =? 0) then ret rc
              else
                chk add_if_m n (win_at n (Z.to_nat (Z.land w 7))) g paf;
                mul_loop_m f n k p1 g false i j
            else
              chk add_if_m n p1 g paf;
              mul_loop_m f n k p1 g false i j
          else mul_loop_m f n k p1 g paf i j
      end
  end.
(** lines 12-107.  A refused window leaves [res] at 0 (lines 29-30). *)
Definition ecp_mul_m (n pr p1 k g : nat) : cmd Z :=
  run z <- pt_zero_m p1;
  if (z : bool) then pt_move_m pr p1
  else
    chk pt_init_m n;
    finally
      (run w <- alloc 0;
       match w with
       | None => ret 0
       | Some _ =>
           chk win_init_m n 8 0;
           finally
             (chk win_m n p1 g;
              run o <- get k;
              chk mul_loop_m (S (65 * o_us o)) n k p1 g true (o_us o) 0;
              call pt_swap_m pr n;
              ret 0)
             (pt_clear_list (map (win_at n) (seq 0 8)))
       end)
      (pt_clear_m n).

(** * src/crypt/ecdh.c:20-28; the group [g], the private key [d], the points [q]
    and [z] *)
Definition ecdh_agree_m (n g d q : nat) : cmd Z := ecp_mul_m n q (g + 3) d g.
Definition ecdh_final_m (n g d q z : nat) : cmd Z := ecp_mul_m n z q d g.

(** * src/mpi/mpi_bin.c:7-44 cry_mpi_load_bin.  The bytes are a list; the digits
    are assembled as in MpiIOModel.lb_step and stored from the top one down. *)
Fixpoint store_down (x : nat) (d m : Z) (i : nat) (p : list Z) : cmd unit :=
  match p with
  | [] => ret tt
  | b :: p =>
      let d := Z.lor (Z.shiftl d 8 mod B) b in
      if m =? 0 then
        match i with
        | O => undefined
        | S i => call wr x i d; store_down x 0 7 i p
        end
      else store_down x d (m - 1) i p
  end.
Definition load_bin_m (x : nat) (buf : list Z) : cmd Z :=
  match skip_zeros buf with
  | [] => call zero x; ret 0
  | p =>
      let i := S ((length p - 1) / 8) in
      chk ensure x i;
      call set_us x i;
      call store_down x 0 (Z.of_nat (length p - 1) mod 8) i p;
      ret 0
  end.
(** src/mpi/mpi_rand.c:8-34; [bin] are the bytes the generator supplies, a failure
    of which (line 22) is not modelled.  The buffer of the bytes is not an
    object. *)
Definition rand_m (x : nat) (bits : Z) (bin : list Z) : cmd Z :=
  if bits =? 0 then call zero x; ret 0
  else
    run b <- alloc 0;
    match b with
    | None => ret (-1)
    | Some _ =>
        chk load_bin_m x bin;
        let i := Z.to_nat ((bits - 1) / 64) in
        let msb := bits - 64 * Z.of_nat i in
        call (if msb <? 64 then run d <- rd x i; wr x i (Z.land d (Z.shiftl 1 msb - 1)) else ret tt);
        run d <- rd x i;
        call wr x i (Z.lor d (Z.shiftl 1 (msb - 1)));
        ret 0
    end.
(** src/mpi/mpi_rand.c:36-47 *)
Definition rand_range_m (n x max : nat) (bin : list Z) : cmd Z :=
  run vm <- peek max;
  chk rand_m x (count_bits vm) bin;
  run va <- peek x;
  if 0 <=? cmp_abs va vm then mod_m n x x max else ret 0.

(** * src/crypt/ecdsa.c.  The group [g], the private key [d], the public point
    [q], the signature's [r] and [s]. *)

(** lines 7-50.  Locals: k, z, X.  Every exit returns 0, but for the first. *)
Definition ecdsa_sign_m (n g d r s : nat) (bin inp : list Z) : cmd Z :=
  chk init_list [] (locals n 2);
  call (finally
    (chk pt_init_m (n + 2);
     finally
       (run o <- get (g + 6);
        chk load_bin_m (n + 1) (firstn (8 * o_us o) inp);
        chk rand_range_m (n + 5) n (g + 6) bin;
        chk ecp_mul_m (n + 5) (n + 2) (g + 3) n g;
        call swap r (n + 2);
        chk inv_m (n + 5) n n (g + 6);
        chk mul_m (n + 5) s d r;
        chk add_m s s (n + 1);
        chk mul_m (n + 5) s s n;
        mod_m (n + 5) s s (g + 6))
       (pt_clear_m (n + 2)))
    (clear_list (locals n 2)));
  ret 0.

(** lines 52-92.  Locals: z, w, G, Q.  Line 89: the last clean-up is also run if
    the points could not be initialised. *)
Definition ecdsa_verify_m (n g q r s : nat) (inp : list Z) : cmd Z :=
  chk init_list [] (locals n 2);
  let G := (n + 2)%nat in
  let Q := (n + 5)%nat in
  finally
    (chk pt_init_list [] [G; Q];
     finally
       (run o <- get (g + 6);
        chk load_bin_m n (firstn (8 * o_us o) inp);
        chk copy (n + 1) s;
        chk inv_m (n + 8) (n + 1) (n + 1) (g + 6);
        chk mul_m (n + 8) n n (n + 1);
        chk mod_m (n + 8) n n (g + 6);
        chk mul_m (n + 8) (n + 1) r (n + 1);
        chk mod_m (n + 8) (n + 1) (n + 1) (g + 6);
        chk ecp_mul_m (n + 8) G (g + 3) n g;
        chk ecp_mul_m (n + 8) Q q (n + 1) g;
        chk ecp_add_m (n + 8) G G Q g;
        chk mod_m (n + 8) G G (g + 6);
        run x <- peek G;
        run vr <- peek r;
        ret (if cmp_abs x vr =? 0 then 0 else -1))
       (pt_clear_list [G; Q]))
    (clear_list [n; n + 1; G; G + 1; Q; Q + 1])%nat.

(** lines 122-129 *)
Definition ecdsa_keygen_m (n g d q : nat) (bin : list Z) : cmd Z :=
  chk rand_range_m n d (g + 6) bin;
  ecp_mul_m n q (g + 3) d g.

(** * Contexts.  src/ecp/ecp_core.c:45-63: the group's objects in the order of the
    calls *)
Definition grp_objs (g : nat) : list nat := [g; g + 1; g + 2; g + 6; g + 3; g + 4; g + 5]%nat.
(** src/ecp/ecp_core.c:45-55 cry_ecp_grp_init *)
Definition grp_init_m (g : nat) : cmd Z :=
  chk init_list [] (grp_objs g); call set_zero_m (g + 3); ret 0.
(** src/ecp/ecp_core.c:57-62 cry_ecp_grp_clear *)
Definition grp_clear_m (g : nat) : cmd unit := clear_list (grp_objs g).
(** src/crypt/ecdh.c:3-10 cry_ecdh_init; no return code is looked at *)
Definition ecdh_init_m (g d q z : nat) : cmd Z :=
  call grp_init_m g; call init d; call pt_init_m q; call pt_init_m z; ret 0.
(** src/crypt/ecdh.c:12-18 cry_ecdh_clear *)
Definition ecdh_clear_m (g d q z : nat) : cmd unit :=
  call grp_clear_m g; call clear d; call pt_clear_m q; pt_clear_m z.
(** src/crypt/ecdsa.c:94-112 cry_ecdsa_init without a named curve (line 106; a
    named curve allocates nothing) *)
Definition ecdsa_init_m (g d q : nat) : cmd Z :=
  chk init d;
  run rc <- (chk pt_init_m q;
             run rc <- grp_init_m g;
             if rc =? 0 then ret 0 else call pt_clear_m q; ret rc);
  if rc =? 0 then ret 0 else call clear d; ret rc.
(** src/crypt/ecdsa.c:114-120 cry_ecdsa_clear *)
Definition ecdsa_clear_m (g d q : nat) : cmd unit :=
  call clear d; call pt_clear_m q; grp_clear_m g.
