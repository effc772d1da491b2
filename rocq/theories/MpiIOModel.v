(** Executable model of the conversions to and from bytes, text and machine
    integers, and of random generation and primality. *)
From Verif Require Import Base MpiModel MpiMulModel MpiDivModel MpiAlgModel.

(** src/mpi/mpi_bin.c:14-16 *)
Fixpoint skip_zeros (l : list Z) : list Z :=
  match l with
  | b :: r => if b =? 0 then skip_zeros r else l
  | [] => []
  end.

(** src/mpi/mpi_bin.c:31-41: one byte.  [d] is the digit being assembled, [m]
    the number of bytes it still lacks after this one, [acc] the digits stored
    so far (the index goes down, so each one is stored below the others). *)
Definition lb_step (st : Z * Z * list Z) (b : Z) : Z * Z * list Z :=
  let '(d, m, acc) := st in
  let d := Z.lor (Z.shiftl d 8 mod B) b in
  if m =? 0 then (0, 7, d :: acc) else (d, m - 1, acc).

(** src/mpi/mpi_bin.c:7-44.  The sign of a non-zero destination is not set:
    [xs] is the sign it had. *)
Definition load_bin (xs : bool) (buf : list Z) : mpi :=
  match skip_zeros buf with
  | [] => mzero
  | p => let '(_, _, acc) := fold_left lb_step p (0, (Z.of_nat (length p) - 1) mod 8, []) in
         mkmpi xs acc
  end.

(** src/mpi/mpi_bin.c:66-67 *)
Definition byte_at (x : mpi) (i : nat) : Z :=
  Z.land (Z.shiftr (nth (i / 8) (dg x) 0) (8 * (Z.of_nat i mod 8))) 255.

(** src/mpi/mpi_bin.c:49-71: the bytes written at the start of the buffer. *)
Definition store_bin (x : mpi) (bufsiz : Z) (pad : bool) : res (list Z) :=
  let i := count_bytes x in
  if bufsiz <? i then Err (-1)
  else
    let bufsiz := if pad then bufsiz else i in
    Ok (repeat 0 (Z.to_nat (bufsiz - i)) ++ map (byte_at x) (rev (seq 0 (Z.to_nat i)))).

(** Characters are their codes.  src/mpi/mpi_str.c:5-8 *)
Definition asc_to_raw (c : Z) : Z :=
  if ((48 <=? c) && (c <=? 57))%bool then c - 48
  else if ((97 <=? c) && (c <=? 122))%bool then c - 97 + 10
  else if ((65 <=? c) && (c <=? 90))%bool then c - 65 + 10
  else 0.

(** src/mpi/mpi_str.c:31-37 *)
Fixpoint hex_pairs (s : list Z) : list Z :=
  match s with
  | a :: b :: r => Z.lor (Z.shiftl (asc_to_raw a) 4 mod 256) (asc_to_raw b) :: hex_pairs r
  | _ => []
  end.

(** src/mpi/mpi_str.c:10-42, into a destination whose sign is 0 (set at
    line 85). *)
Definition load_str_hex (s : list Z) : mpi :=
  load_bin false
    (if Nat.odd (length s)
     then match s with c :: r => asc_to_raw c :: hex_pairs r | [] => [] end
     else hex_pairs s).

(** src/mpi/mpi_core.c:72-97 with 64-bit digits; -LONG_MIN overflows. *)
Definition set_int (v : Z) : res mpi :=
  if v =? - 2 ^ 63 then UB
  else Ok (mkmpi (v <? 0) (if v =? 0 then [] else [Z.abs v])).

(** src/mpi/mpi_core.c:99-118.  With 64-bit digits at most one digit is read;
    storing it in a long is the two's complement conversion. *)
Definition get_int (a : mpi) : res Z :=
  if (64 - (if neg a then 0 else 1)) <? count_bits a then Err (-1)
  else
    let rval := to_long (nth 0 (dg a) 0) in
    if neg a then (if rval =? - 2 ^ 63 then UB else Ok (- rval)) else Ok rval.

(** src/mpi/mpi_str.c:111-122: digits in radix [radix]; [tmp] has one digit even
    when that digit is zero. *)
Fixpoint load_digits (radix : Z) (base a : mpi) (s : list Z) : res mpi :=
  match s with
  | [] => Ok a
  | c :: r =>
      let d := asc_to_raw c in
      if radix <=? d then Err (-1)
      else do a <- mul (neg a) a base;
           do a <- add a (mkmpi false [d]);
           load_digits radix base a r
  end.

(** src/mpi/mpi_str.c:107-109 *)
Fixpoint skip_chars0 (s : list Z) : list Z :=
  match s with
  | c :: r => if c =? 48 then skip_chars0 r else s
  | [] => []
  end.

(** src/mpi/mpi_str.c:75-133; the string is given without its terminator. *)
Definition load_str (radix : Z) (s : list Z) : res mpi :=
  if 36 <? radix then Err (-1)
  else
    let '(sign, s) := match s with
                      | c :: r => if c =? 45 then (true, r) else if c =? 43 then (false, r) else (false, s)
                      | [] => (false, [])
                      end in
    do a <- (if radix =? 16 then Ok (load_str_hex s)
             else do base <- set_int radix; load_digits radix base mzero (skip_chars0 s));
    Ok (set_sign (if is_zero a then false else sign) a).

(** src/mpi/mpi_str.c:44-45 *)
Definition raw_to_asc (c : Z) : Z := if c <? 10 then 48 + c else 97 + (c - 10).

(** src/mpi/mpi_str.c:47-72.  The expansion runs in place from the last byte
    down to the first; a byte is overwritten only after both its nibbles have
    been used, so the model expands a copy. *)
Definition store_str_hex (a : mpi) : res (list Z) :=
  do s <- store_bin a (count_bytes a) false;
  let t := flat_map (fun b => [raw_to_asc (Z.land (Z.shiftr b 4) 15); raw_to_asc (Z.land b 15)]) s in
  Ok (if Z.land (nth 0 s 0) 0xF0 =? 0 then tl t else t).

(** src/mpi/mpi_str.c:160-165: least significant digit first.  Fuel: one round
    per bit suffices. *)
Fixpoint store_digits (fuel : nat) (rad tmp : mpi) : res (list Z) :=
  if is_zero tmp then Ok []
  else match fuel with
       | O => Fuel
       | S f =>
           do ' (q, rem) <- div_abs tmp rad;
           do r <- store_digits f rad q;
           Ok (raw_to_asc (nth 0 (dg rem) 0) :: r)
       end.

(** src/mpi/mpi_str.c:136-187.  The exchange loop of lines 171-179 reverses the
    string. *)
Definition store_str (a : mpi) (radix : Z) : res (list Z) :=
  if ((radix <? 2) || (16 <? radix))%bool then Err (-1)
  else if is_zero a then Ok [48]
  else if radix =? 16 then
    do s <- store_str_hex a;
    Ok (if neg a then 45 :: s else s)
  else
    do rad <- set_int radix;
    do s <- store_digits (Z.to_nat (count_bits a)) rad a;
    Ok (rev (if neg a then s ++ [45] else s)).

(** src/mpi/mpi_print.c:9-12: the buffer obtained for the text of [a]. *)
Definition print_bufsiz (a : mpi) : Z := 2 * count_bytes a + 2.

(** src/mpi/mpi_rand.c:8-34.  [rs] and [alloc] are the sign and the capacity (in
    digits) of the destination, [bin] the (bits+7)/8 bytes the generator
    supplies.  load_bin drops leading zero digits; the digit at index digs-1 is
    then outside the [used] digits, and outside the allocation if that is too
    small. *)
Definition rand (rs : bool) (alloc : nat) (bits : Z) (bin : list Z) : res mpi :=
  if bits =? 0 then Ok mzero
  else
    let r := load_bin rs bin in
    let alloc := if (alloc <? used r)%nat then (used r + (16 - used r mod 8))%nat else alloc in
    let digs := Z.to_nat ((bits - 1) / 64 + 1) in
    let msb := bits - 64 * (Z.of_nat digs - 1) in
    if (digs <=? used r)%nat then
      let d := nth (digs - 1) (dg r) 0 in
      let d := if msb <? 64 then Z.land d (Z.shiftl 1 msb - 1) else d in
      let d := Z.lor d (Z.shiftl 1 (msb - 1)) in
      Ok (mkmpi (neg r) (upd (dg r) (digs - 1) d))
    else if (digs <=? alloc)%nat then Ok r
    else UB.

(** src/mpi/mpi_rand.c:36-47 *)
Definition rand_range (rs : bool) (alloc : nat) (max : mpi) (bin : list Z) : res mpi :=
  do a <- rand rs alloc (count_bits max) bin;
  if 0 <=? cmp_abs a max then mod_ a max else Ok a.

(** src/mpi/mpi_prime.c:34-56 *)
Definition small_primes : list Z :=
  [ 3;    5;    7;   11;   13;   17;   19;   23;
    29;   31;   37;   41;   43;   47;   53;   59;
    61;   67;   71;   73;   79;   83;   89;   97;
   101;  103;  107;  109;  113;  127;  131;  137;
   139;  149;  151;  157;  163;  167;  173;  179;
   181;  191;  193;  197;  199;  211;  223;  227;
   229;  233;  239;  241;  251;  257;  263;  269;
   271;  277;  281;  283;  293;  307;  311;  313;
   317;  331;  337;  347;  349;  353;  359;  367;
   373;  379;  383;  389;  397;  401;  409;  419;
   421;  431;  433;  439;  443;  449;  457;  461;
   463;  467;  479;  487;  491;  499;  503;  509;
   521;  523;  541;  547;  557;  563;  569;  571;
   577;  587;  593;  599;  601;  607;  613;  617;
   619;  631;  641;  643;  647;  653;  659;  661;
   673;  677;  683;  691;  701;  709;  719;  727;
   733;  739;  743;  751;  757;  761;  769;  773;
   787;  797;  809;  811;  821;  823;  827;  829;
   839;  853;  857;  859;  863;  877;  881;  883;
   887;  907;  911;  919;  929;  937;  941;  947;
   953;  967;  971;  977;  983;  991;  997; 1009].

(** src/mpi/mpi_prime.c:66-90: 2 in the list, 1 divisible, 0 undecided.  The
    remainder is stored over the divisor. *)
Fixpoint obviously (p : mpi) (l : list Z) : res Z :=
  match l with
  | [] => Ok 0
  | q :: r =>
      do m <- set_int q;
      if cmp m p =? 0 then Ok 2
      else do ' (_, m) <- div_rb p m;
           if is_zero m then Ok 1 else obviously p r
  end.

(** src/mpi/mpi_prime.c:114-119 *)
Fixpoint strip2 (fuel : nat) (m : mpi) (b : nat) : res (nat * mpi) :=
  if is_odd m then Ok (b, m)
  else match fuel with
       | O => Fuel
       | S f => strip2 f (shr m 1) (S b)
       end.

(** src/mpi/mpi_prime.c:97-121 *)
Definition calc_b_and_m (p : mpi) : res (nat * mpi) :=
  do m <- sub p mone;
  strip2 (Z.to_nat (count_bits p)) m O.

(** [z.used == 1 && z.data[0] == 1], src/mpi/mpi_prime.c:156,162 *)
Definition is_one (z : mpi) : bool :=
  match dg z with [d] => d =? 1 | _ => false end.

(** src/mpi/mpi_prime.c:161-187 *)
Fixpoint mr_loop (n : nat) (z p : mpi) : res bool :=
  match n with
  | O => do z <- add z mone; Ok (cmp z p =? 0)
  | S n' =>
      if is_one z then Ok false
      else do tmp <- add z mone;
           if cmp tmp p =? 0 then Ok true
           else do z <- mul (neg z) z z;
                do z <- mod_ z p;
                mr_loop n' z p
  end.

(** src/mpi/mpi_prime.c:125-190.  [bin] is what the generator supplies for the
    base; the base is a fresh object (8 digits, src/mpi/mpi_core.c:26-38). *)
Definition passes_mr (p : mpi) (bin : list Z) : res bool :=
  do ' (b, m) <- calc_b_and_m p;
  do a <- rand_range false 8 p bin;
  do z <- mod_exp a m p;
  if is_one z then Ok true else mr_loop b z p.

(** src/mpi/mpi_prime.c:202-205 *)
Fixpoint mr_rounds (p : mpi) (draws : list (list Z)) : res bool :=
  match draws with
  | [] => Ok true
  | d :: r => do ok <- passes_mr p d;
              if ok then mr_rounds p r else Ok false
  end.

(** src/mpi/mpi_prime.c:192-220; one draw of bytes per round, five rounds. *)
Definition is_prime (p : mpi) (d1 d2 d3 d4 d5 : list Z) : res bool :=
  do r <- obviously p small_primes;
  if r =? 0 then mr_rounds p [d1; d2; d3; d4; d5]
  else Ok (r =? 2).

(** src/misc.c:31-56 cry_list_init.  The list of elements is the NULL-terminated
    argument list; [ok i] tells whether initialising the i-th element succeeds.
    The result is the return code (0, or [rc], init's error) and the events, in
    order. *)
Inductive event (A : Type) : Type := EInit (x : A) | EFail (x : A) | EClear (x : A).
Arguments EInit {A} x.
Arguments EFail {A} x.
Arguments EClear {A} x.

(** src/misc.c:46-50: [n] elements cleared from the start of the list. *)
Fixpoint clear_n {A} (n : nat) (l : list A) : list (event A) :=
  match n, l with
  | S n', x :: r => EClear x :: clear_n n' r
  | _, _ => []
  end.

(** src/misc.c:39-53 *)
Fixpoint list_init_loop {A} (ok : nat -> bool) (rc : Z) (all l : list A) (n : nat) : Z * list (event A) :=
  match l with
  | [] => (0, [])
  | x :: r =>
      if ok n then let '(res, ev) := list_init_loop ok rc all r (S n) in (res, EInit x :: ev)
      else (rc, EFail x :: clear_n n all)
  end.
Definition list_init {A} (ok : nat -> bool) (rc : Z) (l : list A) : Z * list (event A) :=
  list_init_loop ok rc l l O.
