(** Properties C14 to C16, C18 to C21 and C64: import, export, random numbers,
    primality test, list initialisation. *)
From Coq Require Import Znumtheory.
From Verif Require Import Base BytesSpec MpiModel MpiSpec MpiCanon MpiDivModel MpiAlgModel MpiIOModel MpiIO MpiIO2 MpiRand MpiTextSpec.

(** *** C14: binary import and export. *)
Theorem C14_load : forall buf, bytes buf -> load_bin false buf = ofZ (be_val buf).
Proof. exact load_bin_ofZ. Qed.
Print Assumptions C14_load.

Theorem C14_load_store : forall buf sign, bytes buf -> store_bin (load_bin sign buf) (Z.of_nat (length buf)) true = Ok buf.
Proof. exact (fun buf sign => store_load_bin buf sign). Qed.
Print Assumptions C14_load_store.

Theorem C14_store_load : forall x bufsiz pad, canon x -> 0 <= mval x -> count_bytes x <= bufsiz ->
  exists b, store_bin x bufsiz pad = Ok b /\ bytes b /\ load_bin false b = x.
Proof. exact load_store_bin. Qed.
Print Assumptions C14_store_load.

Theorem C14_store : forall x bufsiz pad, wf x -> count_bytes x <= bufsiz ->
  store_bin x bufsiz pad = Ok (be_bytes (Z.to_nat (if pad then bufsiz else count_bytes x)) (Z.abs (mval x))).
Proof. exact store_bin_ok. Qed.
Print Assumptions C14_store.

Theorem C14_too_small : forall x bufsiz pad, bufsiz < count_bytes x -> store_bin x bufsiz pad = Err (-1).
Proof. exact store_bin_err. Qed.
Print Assumptions C14_too_small.

Example C14_ex : store_bin (load_bin false [0; 0; 1; 2; 3; 4; 5; 6; 7; 8; 9; 0]) 12 true = Ok [0; 0; 1; 2; 3; 4; 5; 6; 7; 8; 9; 0]
  /\ mval (load_bin false [0; 1; 2; 3; 4; 5; 6; 7; 8; 9]) = 18591708106338011145 /\ bytes [0; 0; 1; 255].
Proof. split; [vm_compute; reflexivity|]. split; [vm_compute; reflexivity|]. repeat constructor; discriminate. Qed.

(** *** C15: textual import and export. *)
Theorem C15_roundtrip : forall a radix, canon a -> 2 <= radix <= 16 ->
  exists s, store_str a radix = Ok s /\ load_str radix s = Ok a.
Proof. exact str_roundtrip. Qed.
Print Assumptions C15_roundtrip.

Theorem C15_store : forall a radix, canon a -> 2 <= radix <= 16 ->
  exists s, store_str a radix = Ok ((if mval a <? 0 then [45] else []) ++ s) /\ Forall (valid_digit radix) s /\
    num_val radix s = Z.abs (mval a) /\ (mval a = 0 /\ s = [48] \/ exists c s', s = c :: s' /\ char_val c <> 0).
Proof. exact store_str_ok. Qed.
Print Assumptions C15_store.

Theorem C15_load : forall radix s, 2 <= radix <= 36 -> Forall (valid_digit radix) s ->
  load_str radix s = Ok (ofZ (num_val radix s)) /\ load_str radix (43 :: s) = Ok (ofZ (num_val radix s)) /\
  load_str radix (45 :: s) = Ok (ofZ (- num_val radix s)).
Proof. exact load_str_ok. Qed.
Print Assumptions C15_load.

(** "-1000000007000000009000000011" in radix 10, and the same number in radix 16. *)
Example C15_ex :
  let a := ofZ (-1000000007000000009000000011) in
  store_str a 10 = Ok [45; 49;48;48;48;48;48;48;48;48;55; 48;48;48;48;48;48;48;48;57; 48;48;48;48;48;48;48;49;49] /\
  load_str 10 [45; 49;48;48;48;48;48;48;48;48;55; 48;48;48;48;48;48;48;48;57; 48;48;48;48;48;48;48;49;49] = Ok a /\
  load_str 16 [45; 70; 102] = Ok (ofZ (-255)) /\ store_str (ofZ 4095) 16 = Ok [102; 102; 102].
Proof. vm_compute. auto. Qed.

(** *** C16: machine integers. *)
Theorem C16_set_int_refuted : exists v, - 2 ^ 63 <= v < 2 ^ 63 /\ set_int v = UB.
Proof. exists (- 2 ^ 63). split; [lia|reflexivity]. Qed.
Print Assumptions C16_set_int_refuted.

Theorem C16_set_int_partial : forall v, - 2 ^ 63 < v < 2 ^ 63 -> set_int v = Ok (ofZ v).
Proof. exact set_int_ofZ. Qed.
Print Assumptions C16_set_int_partial.

(** Too large negative integers are not reported, but come back positive. *)
Theorem C16_get_int_refuted : exists v r, v < - 2 ^ 63 /\ get_int (ofZ v) = Ok r.
Proof. exists (- 2 ^ 63 - 1), (2 ^ 63 - 1). split; [lia|vm_compute; reflexivity]. Qed.
Print Assumptions C16_get_int_refuted.

Theorem C16_get_int_partial : forall v, - 2 ^ 63 < v < 2 ^ 63 -> get_int (ofZ v) = Ok v.
Proof. exact get_int_ok. Qed.
Print Assumptions C16_get_int_partial.

Theorem C16_get_int_error_partial : forall v, 2 ^ 63 <= v \/ v <= - 2 ^ 64 -> get_int (ofZ v) = Err (-1).
Proof. exact get_int_err. Qed.
Print Assumptions C16_get_int_error_partial.

Theorem C16_get_int_between : forall v, - 2 ^ 64 < v <= - 2 ^ 63 ->
  get_int (ofZ v) = if v =? - 2 ^ 63 then UB else Ok (v + 2 ^ 64).
Proof. exact get_int_band. Qed.
Print Assumptions C16_get_int_between.

Example C16_ex : set_int (2 ^ 63 - 1) = Ok (ofZ (2 ^ 63 - 1)) /\ get_int (ofZ (- (2 ^ 63 - 1))) = Ok (- (2 ^ 63 - 1)).
Proof. vm_compute. auto. Qed.

(** *** C18: no prime is rejected. *)
Theorem C18_prime_accepted : forall p d1 d2 d3 d4 d5, canon p -> prime (mval p) ->
  (forall d, In d [d1; d2; d3; d4; d5] ->
     draw_for (mval p) d /\ exists a, rand_range false 8 p d = Ok a /\ mval a <> 0) ->
  is_prime p d1 d2 d3 d4 d5 = Ok true.
Proof. exact is_prime_complete. Qed.
Print Assumptions C18_prime_accepted.

(** A zero base makes a prime fail. *)
Theorem C18_zero_base_refuted : exists p d, prime p /\ draw_for p d /\ rand_range false 8 (ofZ p) d = Ok (ofZ 0) /\
  is_prime (ofZ p) d d d d d = Ok false.
Proof.
  exists 2, [2]. split; [exact prime_2|]. split; [split; [repeat constructor; discriminate|reflexivity]|].
  split; vm_compute; reflexivity.
Qed.
Print Assumptions C18_zero_base_refuted.

Example C18_ex : is_prime (ofZ (2 ^ 13 - 1)) (repeat 3 2) (repeat 77 2) (repeat 1 2) (repeat 200 2) (repeat 13 2) = Ok true
  /\ draw_for (2 ^ 13 - 1) (repeat 3 2) /\ exists a, rand_range false 8 (ofZ (2 ^ 13 - 1)) (repeat 3 2) = Ok a /\ mval a <> 0.
Proof.
  split; [vm_compute; reflexivity|]. split; [split; [repeat constructor; discriminate|reflexivity]|].
  eexists. split; [vm_compute; reflexivity|vm_compute; discriminate].
Qed.

(** *** C19: accepted numbers. *)
Theorem C19_accepted : forall p d1 d2 d3 d4 d5, canon p -> 1 < mval p ->
  (forall d, In d [d1; d2; d3; d4; d5] -> draw_for (mval p) d) ->
  is_prime p d1 d2 d3 d4 d5 = Ok true ->
  In (mval p) small_primes \/
  (forall q, In q small_primes -> ~ (q | mval p)) /\
   forall d, In d [d1; d2; d3; d4; d5] -> exists a, rand_range false 8 p d = Ok a /\ miller_rabin (mval p) (mval a).
Proof. exact is_prime_sound. Qed.
Print Assumptions C19_accepted.

Theorem C19_small_primes : forall q, prime q -> 3 <= q <= 1009 -> In q small_primes.
Proof. exact small_primes_all. Qed.
Print Assumptions C19_small_primes.

(** An even number can be accepted. *)
Theorem C19_even_refuted : exists p d, p = 4 /\ draw_for p d /\ is_prime (ofZ p) d d d d d = Ok true.
Proof.
  exists 4, [1]. split; [reflexivity|]. split; [split; [repeat constructor; discriminate|reflexivity]|]. vm_compute. reflexivity.
Qed.
Print Assumptions C19_even_refuted.

Example C19_ex : is_prime (ofZ 1018081) [0;5;5] [1;5;5] [2;5;5] [3;5;5] [4;5;5] = Ok false /\ is_prime (ofZ 1022117) [0;5;5] [1;5;5] [2;5;5] [3;5;5] [4;5;5] = Ok false
  /\ is_prime (ofZ 1000003) [0;5;5] [1;5;5] [2;5;5] [3;5;5] [4;5;5] = Ok true.
Proof. vm_compute. auto. Qed.

(** *** C20: random integers are in range. *)
(** The number of digits exceeds the capacity and the drawn bytes have leading
    zeros: a digit outside the allocation is written. *)
Theorem C20_rand_refuted : exists bits bin, 0 < bits /\ bytes bin /\ Z.of_nat (length bin) = (bits + 7) / 8 /\
  rand false 8 bits bin = UB.
Proof.
  exists 576, (repeat 0 72). split; [reflexivity|]. split; [apply Bytes.bytes_repeat0|]. split; [reflexivity|]. vm_compute. reflexivity.
Qed.
Print Assumptions C20_rand_refuted.

Theorem C20_rand_partial : forall rs alloc bits bin, 0 < bits -> bytes bin -> Z.of_nat (length bin) = (bits + 7) / 8 ->
  (ndigs bits <= alloc)%nat \/ B ^ (Z.of_nat (ndigs bits) - 1) <= be_val bin ->
  exists r, rand rs alloc bits bin = Ok r /\ wf r /\ neg r = (if be_val bin =? 0 then false else rs) /\
    val (dg r) < 2 ^ bits /\ (B ^ (Z.of_nat (ndigs bits) - 1) <= be_val bin -> 2 ^ (bits - 1) <= val (dg r)).
Proof. exact rand_ok. Qed.
Print Assumptions C20_rand_partial.

Theorem C20_rand_range_partial : forall alloc m bin, 0 < m -> draw_for m bin ->
  (used (ofZ m) <= alloc)%nat \/ B ^ (Z.of_nat (used (ofZ m)) - 1) <= be_val bin ->
  exists r, rand_range false alloc (ofZ m) bin = Ok (ofZ r) /\ 0 <= r < m.
Proof. exact rand_range_ok. Qed.
Print Assumptions C20_rand_range_partial.

(** Whatever the capacity: if the call returns normally, the value is in range. *)
Theorem C20_rand_range_normal : forall alloc m bin a, 0 < m -> draw_for m bin ->
  rand_range false alloc (ofZ m) bin = Ok a -> exists r, a = ofZ r /\ 0 <= r < m.
Proof. exact rand_range_range. Qed.
Print Assumptions C20_rand_range_normal.

Example C20_ex : rand_range false 8 (ofZ (3 * 2 ^ 70)) (repeat 255 9) = Ok (ofZ ((2 ^ 72 - 1) mod (3 * 2 ^ 70)))
  /\ draw_for (3 * 2 ^ 70) (repeat 255 9) /\ (used (ofZ (3 * 2 ^ 70)) <= 8)%nat.
Proof. split; [vm_compute; reflexivity|]. split; [split; [repeat constructor; discriminate|reflexivity]|]. apply Nat.leb_le. vm_compute. reflexivity. Qed.

(** *** C21: list initialisation.  Either every element is initialised, once and
    in order, and 0 is returned; or the element at position k fails, exactly the
    k elements before it have been initialised, and exactly these are cleared. *)
Theorem C21_all_or_nothing : forall (A : Type) (ok : nat -> bool) rc (all : list A),
  (forall i, (0 <= i < 0 + length all)%nat -> ok i = true) /\ list_init ok rc all = (0, map EInit all) \/
  exists k x, nth_error all k = Some x /\ ok (0 + k)%nat = false /\ (forall i, (0 <= i < 0 + k)%nat -> ok i = true) /\
    list_init ok rc all = (rc, map EInit (firstn k all) ++ EFail x :: map EClear (firstn (0 + k) all)).
Proof. exact (fun A ok rc all => list_init_loop_ok ok rc all all 0). Qed.
Print Assumptions C21_all_or_nothing.

Example C21_ex : list_init (fun i => Nat.ltb i 2) (-1) [10; 11; 12; 13] =
  (-1, [EInit 10; EInit 11; EFail 12; EClear 10; EClear 11]) /\ list_init (fun i => true) (-1) [10; 11] = (0, [EInit 10; EInit 11]).
Proof. vm_compute. auto. Qed.

(** *** C64: the buffer cry_mpi_print allocates. *)
Theorem C64_print_refuted : exists a radix s, canon a /\ 2 <= radix <= 16 /\ store_str a radix = Ok s /\
  print_bufsiz a < Z.of_nat (length s) + 1.
Proof.
  exists (ofZ 255), 2, (repeat 49 8). split; [apply canon_ofZ|]. split; [lia|]. split; vm_compute; reflexivity.
Qed.
Print Assumptions C64_print_refuted.

Theorem C64_print_hex_partial : forall a s, wf a -> store_str a 16 = Ok s -> Z.of_nat (length s) + 1 <= print_bufsiz a.
Proof. exact store_hex_length. Qed.
Print Assumptions C64_print_hex_partial.

Example C64_ex : store_str (ofZ (-255)) 16 = Ok [45; 102; 102] /\ print_bufsiz (ofZ (-255)) = 4.
Proof. vm_compute. auto. Qed.
