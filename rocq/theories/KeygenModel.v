(** Executable model of prime generation (src/mpi/mpi_prime.c) and of the RSA
    and DSA key generation (src/crypt/rsa.c, src/crypt/dsa.c).
    Allocation always succeeds, see MpiModel; a call that reports an error ends
    the model with Err, where the code returns a non-zero code. *)
From Verif Require Import Base MpiModel MpiMulModel MpiDivModel MpiAlgModel MpiIOModel PkModel.

(** The random generator and the heap.  Each use of the generator has its own
    place, a path of loop counters: [byt s l n] are the n bytes supplied at the
    place l, [cap s l] the capacity in digits of the object they are loaded into.
    The bytes of a place the run does not come to are not used.  A run of the
    code is a run of the model with the bytes of the generator at the places in
    the order they are come to. *)
Record src := { cap : list nat -> nat; byt : list nat -> nat -> list Z }.
Definition at_ (s : src) (i : nat) : src :=
  {| cap := fun l => cap s (i :: l); byt := fun l => byt s (i :: l) |}.

(** src/mpi/mpi_rand.c:8-34 at one place: (bits+7)/8 bytes *)
Definition draw (s : src) (bits : Z) : res mpi :=
  rand false (cap s []) bits (byt s [] (Z.to_nat ((bits + 7) / 8))).
(** src/mpi/mpi_rand.c:36-47 at one place *)
Definition draw_range (s : src) (max : mpi) : res mpi :=
  rand_range false (cap s []) max (byt s [] (Z.to_nat ((count_bits max + 7) / 8))).

(** src/mpi/mpi_pvt.h:66-68 cry_mpi_set_bit.  Written to a digit that is
    allocated but not counted in [used], the bit is no part of the number. *)
Definition mset_bit (a : mpi) (bit : Z) : mpi :=
  let i := Z.to_nat (bit / 64) in
  if (i <? used a)%nat then mkmpi (neg a) (upd (dg a) i (Z.lor (nth i (dg a) 0) (Z.shiftl 1 (bit mod 64))))
  else a.

(** src/mpi/mpi_prime.c:242-254: one candidate.  The digit of the two top bits is
    the one cry_mpi_rand wrote to, so it is allocated. *)
Definition candidate (s : src) (bits : Z) : res mpi :=
  do p <- draw (at_ s 0) bits;
  Ok (mset_bit (mset_bit (mset_bit p 0) (bits - 1)) (bits - 2)).
(** src/mpi/mpi_prime.c:192-220, the five rounds at places 1 to 5 *)
Definition test (s : src) (p : mpi) : res bool :=
  let d j := byt s [j] (Z.to_nat ((count_bits p + 7) / 8)) in
  is_prime p (d 1%nat) (d 2%nat) (d 3%nat) (d 4%nat) (d 5%nat).

(** src/mpi/mpi_prime.c:240-267.  [n] is itermax - i.  Return code, number, and
    the rounds stored in *iter. *)
Fixpoint prime_loop (n i itermax : nat) (s : src) (bits : Z) (p : mpi) : res (Z * mpi * nat) :=
  match n with
  | O => Ok (-1, p, i)
  | S n' =>
      do p <- candidate (at_ s i) bits;
      do ok <- test (at_ s i) p;
      if ok then Ok (if (S i =? itermax)%nat then -1 else 0, p, S i)
      else prime_loop n' (S i) itermax s bits p
  end.
(** src/mpi/mpi_prime.c:222-268 cry_mpi_prime; [iter] is *iter when given. *)
Definition mprime (s : src) (bits : Z) (iter : option nat) (p : mpi) : res (Z * mpi * nat) :=
  let itermax := match iter with Some n => n | None => Z.to_nat 5000 end in
  if orb (negb (Z.land bits 7 =? 0)) (bits =? 0) then Ok (-1, p, itermax)
  else prime_loop itermax O itermax s bits p.

(** * RSA *)
(** include/cry/rsa.h struct cry_rsa_ctx without the padding *)
Record rsakey := { rk_n : mpi; rk_e : mpi; rk_d : mpi; rk_p : mpi; rk_q : mpi }.
(** src/crypt/rsa.c:323-348: one round.  Outcome of the round: the return code, if
    it ends the function; otherwise the key so far and the number [g] the loop
    condition looks at, which is the one of an earlier round when the round is
    cut short by [continue].  [jx], [jy] are the uninitialised digits of
    cry_mpi_gcd. *)
Definition rsa_round (jx jy : Z) (s : src) (bits e : Z) (k : rsakey) (g : mpi) : res (Z * rsakey * mpi) :=
  let half := Z.shiftr bits 1 in
  let lim := Some (Z.to_nat 10000) in
  do ' (rp, p, _) <- mprime (at_ s 0) half lim (rk_p k);
  let k := {| rk_n := rk_n k; rk_e := rk_e k; rk_d := rk_d k; rk_p := p; rk_q := rk_q k |} in
  if negb (rp =? 0) then Ok (rp, k, g) else
  do ' (rq, q, _) <- mprime (at_ s 1) half lim (rk_q k);
  let k := {| rk_n := rk_n k; rk_e := rk_e k; rk_d := rk_d k; rk_p := p; rk_q := q |} in
  if negb (rq =? 0) then Ok (rq, k, g) else
  if cmp q p =? 0 then Ok (0, k, g) else
  do n <- mul (neg (rk_n k)) p q;
  let k := {| rk_n := n; rk_e := rk_e k; rk_d := rk_d k; rk_p := p; rk_q := q |} in
  if negb (count_bits n =? bits) then Ok (0, k, g) else
  do p1 <- sub p mone;
  do q1 <- sub q mone;
  do phi <- mul false p1 q1;
  do e' <- (if e =? 0 then draw (at_ s 2) bits else Ok (rk_e k));
  let k := {| rk_n := n; rk_e := e'; rk_d := rk_d k; rk_p := p; rk_q := q |} in
  do g <- gcd jx jy e' phi;
  Ok (0, k, g).
(** src/crypt/rsa.c:321-349; [n] rounds are left of the MAX_ITER ones.  The
    comparison of [g] with 1 comes after the round. *)
Fixpoint rsa_loop (n i : nat) (jx jy : Z) (s : src) (bits e : Z) (k : rsakey) (g : mpi) : res (Z * rsakey) :=
  match n with
  | O => Ok (0, k)
  | S n' =>
      do ' (rc, k, g) <- rsa_round jx jy (at_ s i) bits e k g;
      if negb (rc =? 0) then Ok (rc, k)
      else if cmp g mone =? 0 then Ok (0, k)
      else rsa_loop n' (S i) jx jy s bits e k g
  end.
(** src/crypt/rsa.c:300-353 cry_rsa_keygen: return code and key.  The exponent d
    is not written. *)
Definition rsa_keygen (jx jy : Z) (s : src) (bits e : Z) (k : rsakey) : res (Z * rsakey) :=
  do e0 <- (if e =? 0 then Ok (rk_e k) else set_int e);
  rsa_loop (Z.to_nat 10000) O jx jy s bits e
    {| rk_n := rk_n k; rk_e := e0; rk_d := rk_d k; rk_p := rk_p k; rk_q := rk_q k |} mzero.
(** src/crypt/rsa.c:355-360 cry_rsa_init *)
Definition rsa_fresh : rsakey := {| rk_n := mzero; rk_e := mzero; rk_d := mzero; rk_p := mzero; rk_q := mzero |}.

(** * DSA *)
(** src/crypt/dsa.c:162-170: a prime p with 2q | p-1.  An error of the primality
    test counts as "prime", as any non-zero value does. *)
Fixpoint dsa_find_p (n j : nat) (s : src) (pbits : Z) (q : mpi) : res (option mpi) :=
  match n with
  | O => Ok None
  | S n' =>
      do p <- draw (at_ (at_ s j) 0) pbits;
      do r <- add q q;
      do r <- mod_ p r;
      do p <- sub p r;
      do p <- add p mone;
      do ok <- match test (at_ s j) p with Err _ => Ok true | r => r end;
      if ok then Ok (Some p) else dsa_find_p n' (S j) s pbits q
  end.
(** src/crypt/dsa.c:177-184: a generator; [t] is (p-1)/q, [p1] is p-1. *)
Fixpoint dsa_find_g (n j : nat) (s : src) (p p1 t : mpi) : res (option mpi) :=
  match n with
  | O => Ok None
  | S n' =>
      do r <- draw_range (at_ s j) p1;
      do r <- add r mone;
      do g <- mod_exp r t p;
      if 0 <? cmp_abs g mone then Ok (Some g) else dsa_find_g n' (S j) s p p1 t
  end.
(** src/crypt/dsa.c:158-192; [n] rounds are left of the ITER_MAX_OUT ones, [lim]
    is ITER_MAX_IN.  The sizes of q and p are parameters here.  The quotient takes the place of the
    local variable [q] of the code. *)
Fixpoint dsa_loop (lim n i : nat) (s : src) (qbits pbits : Z) (c : dsa) : res dsa :=
  match n with
  | O => Err (-1)
  | S n' =>
      let s' := at_ s i in
      do ' (rq, q, _) <- mprime (at_ s' 0) qbits None (dsa_q c);
      if negb (rq =? 0) then Err (-1) else
      do op <- dsa_find_p lim O (at_ s' 1) pbits q;
      match op with
      | None => dsa_loop lim n' (S i) s qbits pbits c
      | Some p =>
          do p1 <- sub p mone;
          do ' (t, _) <- div_gen false p1 q;
          do og <- dsa_find_g lim O (at_ s' 2) p p1 t;
          match og with
          | None => dsa_loop lim n' (S i) s qbits pbits c
          | Some g =>
              do x <- draw_range (at_ s' 3) t;
              do y <- mod_exp g x p;
              Ok {| dsa_p := p; dsa_q := q; dsa_g := g; dsa_pvt := x; dsa_pub := y |}
          end
      end
  end.
(** src/crypt/dsa.c:137-195 cry_dsa_keygen; 512 + l*64 is computed modulo 2^32. *)
Definition dsa_keygen (s : src) (l : Z) (c : dsa) : res dsa :=
  dsa_loop (Z.to_nat 4096) (Z.to_nat 1024) O s 160 ((512 + l * 64) mod 2 ^ 32) c.
