(** Executable model of the elliptic curve code: src/ecp/ecp_core.c, ecp_add.c,
    ecp_dbl.c, ecp_mul.c, src/crypt/ecdh.c, ecdsa.c, over the multi-precision
    model.  Allocation always succeeds, see MpiModel; in cry_ecp_mul this also
    means that the malloc of the window succeeds.  Result objects may be the
    same as the operands: every function works on local objects and moves the
    result at the end, so a model function returns the new value. *)
From Verif Require Import Base MpiModel MpiMulModel MpiDivModel MpiAlgModel MpiIOModel.

(** include/cry/ecp.h:26-30 struct cry_ecp *)
Record ecp := { ex : mpi; ey : mpi; ez : mpi }.
(** include/cry/ecp.h:38-44 struct cry_ecp_grp *)
Record grp := { gp : mpi; ga : mpi; gb : mpi; gg : ecp; gn : mpi }.
(** include/cry/ecp.h:77-78 cry_ecp_is_zero *)
Definition ecp_is_zero (P : ecp) : bool := is_zero (ez P).
(** include/cry/ecp.h:80-84 cry_ecp_set_zero; ecp_core.c:3-11 cry_ecp_init *)
Definition ecp_zero : ecp := {| ex := mone; ey := mone; ez := mzero |}.

(** src/ecp/ecp_add.c:45-61 and ecp_dbl.c:34-50: the result from lambda *)
Definition ecp_third (p lam x1 y1 x2 : mpi) : res ecp :=
  do x <- sqr false lam;
  do x <- mod_ x p;
  do x <- sub x x1;
  do x <- sub x x2;
  do x <- mod_ x p;
  do y <- sub x1 x;
  do y <- mul (neg y) y lam;
  do y <- mod_ y p;
  do y <- sub y y1;
  do y <- mod_ y p;
  Ok {| ex := x; ey := y; ez := mone |}.

(** src/ecp/ecp_dbl.c:6-51 cry_ecp_dbl.  Line 32 reduces [den] where the comment
    suggests [lam]; lambda is used unreduced. *)
Definition ecp_dbl (g : grp) (P : ecp) : res ecp :=
  if ecp_is_zero P then Ok P
  else
    do num <- set_int 3;
    do num <- mul (neg num) num (ex P);
    do num <- mul (neg num) num (ex P);
    do num <- mod_ num (gp g);
    do num <- add num (ga g);
    do num <- mod_ num (gp g);
    do den <- set_int 2;
    do den <- mul (neg den) den (ey P);
    do den <- inv den (gp g);
    do den <- mod_ den (gp g);
    do lam <- mul false num den;
    do den <- mod_ den (gp g);
    ecp_third (gp g) lam (ex P) (ey P) (ex P).

(** src/ecp/ecp_add.c:7-67 cry_ecp_add *)
Definition ecp_add (g : grp) (P Q : ecp) : res ecp :=
  if ecp_is_zero P then Ok Q
  else if ecp_is_zero Q then Ok P
  else
    do num <- sub (ey Q) (ey P);
    do num <- mod_ num (gp g);
    do den <- sub (ex Q) (ex P);
    do den <- mod_ den (gp g);
    if is_zero den then
      if is_zero num then ecp_dbl g P else Ok ecp_zero
    else
      do den <- inv den (gp g);
      do lam <- mul false num den;
      do lam <- mod_ lam (gp g);
      ecp_third (gp g) lam (ex P) (ey P) (ex Q).

(** src/ecp/ecp_mul.c:38-48: the window 8P, 9P, ..., 15P *)
Fixpoint ecp_win_next (g : grp) (n : nat) (Q P : ecp) : res (list ecp) :=
  match n with
  | O => Ok []
  | S n' => do R <- ecp_add g Q P; do l <- ecp_win_next g n' R P; Ok (R :: l)
  end.
Definition ecp_win (g : grp) (P : ecp) : res (list ecp) :=
  do W <- ecp_dbl g P;
  do W <- ecp_dbl g W;
  do W <- ecp_dbl g W;
  do l <- ecp_win_next g 7 W P;
  Ok (W :: l).
(** src/ecp/ecp_mul.c:62 and 76: bit [j] of digit [i] *)
Definition kbit (k : mpi) (i j : nat) : res bool :=
  if Nat.ltb i (used k) then Ok (negb (Z.land (nth i (dg k) 0) (Z.shiftl 1 (Z.of_nat j)) =? 0)) else UB.
(** src/ecp/ecp_mul.c:59-60 and 73-74: r is doubled once it holds something *)
Definition dbl_if (g : grp) (paf : bool) (r : ecp) : res ecp := if paf then Ok r else ecp_dbl g r.
(** src/ecp/ecp_mul.c:67-78.  Going below digit 0 reads before the array. *)
Fixpoint win_loop (fuel : nat) (g : grp) (k : mpi) (paf : bool) (w : Z) (i j : nat) (r : ecp) : res (Z * nat * nat * ecp) :=
  match fuel with
  | O => Fuel
  | S f =>
      if w <? 8 then
        do ' (i, j) <- match j with
                       | O => match i with O => UB | S i' => Ok (i', 64%nat) end
                       | _ => Ok (i, j)
                       end;
        let j := (j - 1)%nat in
        do r <- dbl_if g paf r;
        do b <- kbit k i j;
        win_loop f g k paf (Z.lor (Z.shiftl w 1) (if b then 1 else 0)) i j r
      else Ok (w, i, j, r)
  end.
(** src/ecp/ecp_mul.c:82-87 and 90-95: addition, or copy the first time *)
Definition add_if (g : grp) (paf : bool) (r Q : ecp) : res ecp := if paf then Ok Q else ecp_add g r Q.
(** src/ecp/ecp_mul.c:53-98: the two nested loops as one, [i] and [j] as between
    two passes of the inner one; [j] is 0 when the inner loop is left. *)
Fixpoint mul_loop (fuel : nat) (g : grp) (k : mpi) (P : ecp) (win : list ecp) (paf : bool) (i j : nat) (r : ecp) : res ecp :=
  match fuel with
  | O => Fuel
  | S f =>
      match j with
      | O => match i with O => Ok r | S i' => mul_loop f g k P win paf i' 64 r end
      | S j =>
          do r <- dbl_if g paf r;
          do b <- kbit k i j;
          if b then
            if negb (Nat.eqb i 0) || Nat.leb 3 j then
              do ' (w, i, j, r) <- win_loop 5 g k paf 1 i j r;
              do r <- add_if g paf r (nth (Z.to_nat (Z.land w 7)) win ecp_zero);
              mul_loop f g k P win false i j r
            else
              do r <- add_if g paf r P;
              mul_loop f g k P win false i j r
          else mul_loop f g k P win paf i j r
      end
  end.
(** src/ecp/ecp_mul.c:12-107 cry_ecp_mul, with CRY_ECP_MUL_SLIDING_WIN defined
    as in include/cry/config.h:11.  The sign of k is not looked at. *)
Definition ecp_mul (g : grp) (P : ecp) (k : mpi) : res ecp :=
  if ecp_is_zero P then Ok P
  else
    do win <- ecp_win g P;
    mul_loop (S (65 * used k)) g k P win true (used k) 0 ecp_zero.

(** src/ecp/ecp_mul.c:218-222: bits [n-1], ..., 0 *)
Fixpoint mul_bits (g : grp) (k : mpi) (P : ecp) (n : nat) (r : ecp) : res ecp :=
  match n with
  | O => Ok r
  | S n' =>
      do r <- ecp_dbl g r;
      do b <- is_bit_set k (Z.of_nat n');
      do r <- if b then ecp_add g r P else Ok r;
      mul_bits g k P n' r
  end.
(** src/ecp/ecp_mul.c:203-227 cry_ecp_mul with neither CRY_ECP_MUL_SLIDING_WIN
    nor CRY_ECP_MUL_WIN defined (with only the latter the file does not compile:
    lines 144-157 call cry_ecp_dbl and cry_ecp_add with other arguments than
    they are declared with). *)
Definition ecp_mul_plain (g : grp) (P : ecp) (k : mpi) : res ecp :=
  if ecp_is_zero P then Ok P
  else mul_bits g k P (Z.to_nat (count_bits k)) ecp_zero.

(** * ECDH *)
(** include/cry/ecdh.h:11-16 struct cry_ecdh_ctx *)
Record ecdh := { dh_ec : grp; dh_d : mpi; dh_q : ecp; dh_z : ecp }.
(** src/crypt/ecdh.c:20-23 cry_ecdh_agree *)
Definition ecdh_agree (c : ecdh) : res ecdh :=
  do q <- ecp_mul (dh_ec c) (gg (dh_ec c)) (dh_d c);
  Ok {| dh_ec := dh_ec c; dh_d := dh_d c; dh_q := q; dh_z := dh_z c |}.
(** src/crypt/ecdh.c:25-28 cry_ecdh_final *)
Definition ecdh_final (c : ecdh) : res ecdh :=
  do z <- ecp_mul (dh_ec c) (dh_q c) (dh_d c);
  Ok {| dh_ec := dh_ec c; dh_d := dh_d c; dh_q := dh_q c; dh_z := z |}.

(** * ECDSA *)
(** include/cry/ecdsa.h:11-15 struct cry_ecdsa_ctx *)
Record ecdsa := { sa_grp : grp; sa_d : mpi; sa_q : ecp }.
(** src/crypt/ecdsa.c:18-21 and 63-66: the input, cut to the size of n *)
Definition ecdsa_trunc (n : mpi) (inp : list Z) : list Z := firstn (8 * used n) inp.
(** A failing call jumps to the exit label and the function returns 0
    (src/crypt/ecdsa.c:47-49), the signature holding what it held then. *)
Definition chk {A T} (m : res A) (k : A -> res T) (at_exit : T) : res T :=
  match m with Ok x => k x | Err _ => Ok at_exit | UB => UB | Fuel => Fuel end.
(** src/crypt/ecdsa.c:7-50 cry_ecdsa_sign: return code and signature; [r0], [s0]
    are the values the signature object had, [bin] the bytes of the generator.
    k is a fresh object of 8 digits, see src/mpi/mpi_core.c:26-38. *)
Definition ecdsa_sign (c : ecdsa) (r0 s0 : mpi) (bin inp : list Z) : res (Z * mpi * mpi) :=
  let g := sa_grp c in
  let z := load_bin false (ecdsa_trunc (gn g) inp) in
  chk (rand_range false 8 (gn g) bin) (fun k =>
  chk (ecp_mul g (gg g) k) (fun X =>
  let r := ex X in
  chk (inv k (gn g)) (fun k =>
  chk (mul (neg s0) (sa_d c) r) (fun s1 =>
  chk (add s1 z) (fun s2 =>
  chk (mul (neg s2) s2 k) (fun s3 =>
  chk (mod_ s3 (gn g)) (fun s => Ok (0, r, s))
    (0, r, s3)) (0, r, s2)) (0, r, s1)) (0, r, s0)) (0, r, s0)) (0, r0, s0)) (0, r0, s0).
(** src/crypt/ecdsa.c:52-92 cry_ecdsa_verify: return code *)
Definition ecdsa_verify (c : ecdsa) (r s : mpi) (inp : list Z) : res Z :=
  let g := sa_grp c in
  let z := load_bin false (ecdsa_trunc (gn g) inp) in
  do w <- inv s (gn g);
  do z <- mul (neg z) z w;
  do z <- mod_ z (gn g);
  do w <- mul (neg w) r w;
  do w <- mod_ w (gn g);
  do G <- ecp_mul g (gg g) z;
  do Q <- ecp_mul g (sa_q c) w;
  do G <- ecp_add g G Q;
  do x <- mod_ (ex G) (gn g);
  if cmp_abs x r =? 0 then Ok 0 else Err (-1).
(** src/crypt/ecdsa.c:122-129 cry_ecdsa_keygen; [ds], [alloc] the sign and the
    capacity of the private key's object *)
Definition ecdsa_keygen (c : ecdsa) (ds : bool) (alloc : nat) (bin : list Z) : res ecdsa :=
  do d <- rand_range ds alloc (gn (sa_grp c)) bin;
  do q <- ecp_mul (sa_grp c) (gg (sa_grp c)) d;
  Ok {| sa_grp := sa_grp c; sa_d := d; sa_q := q |}.
