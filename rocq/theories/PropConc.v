(** C85: threads inside the library at the same time *)
From Coq Require Import Znumtheory.
From Verif Require Import Base BytesSpec MpiModel MpiAlgModel MpiSpec MpiIOModel MpiTextSpec PkModel PkSpec EcpModel EcSpec EcpSpec AesModel AesSpec Aes4 PrngModel PrngSpec ConcModel Conc ConcInit Conc2 Conc3 Conc4 Nonce PropEcp.

(** Any number of threads encrypting with one context: every schedule gives every
    thread what it would get alone. *)
Theorem C85_encrypt key srcs sch : bytes key -> (16 <= length key)%nat -> Forall bytes srcs ->
  exists c ts', aes_key_set key = Ok c /\ sched aes_step c (map (AStart true) srcs) sch = Ok (c, ts') /\
    forall i src, nth_error srcs i = Some src ->
      (forall out, nth_error ts' i = Some (ADone out) -> out = fips_op (firstn (aes_size (length key)) key) (Enc src)) /\
      ((2 + 15 * (length src / 16) <= count_occ Nat.eq_dec sch i)%nat ->
       nth_error ts' i = Some (ADone (fips_op (firstn (aes_size (length key)) key) (Enc src)))).
Proof. exact (aes_shared_enc key srcs sch). Qed.
Print Assumptions C85_encrypt.

(** Decrypting, once the context has been used to decrypt before. *)
Theorem C85_decrypt key srcs sch : bytes key -> (16 <= length key)%nat -> Forall bytes srcs ->
  exists c ts', aes_key_set key = Ok c /\ let c := fst (aes_decrypt c []) in
    sched aes_step c (map (AStart false) srcs) sch = Ok (c, ts') /\
    forall i src, nth_error srcs i = Some src ->
      (forall out, nth_error ts' i = Some (ADone out) -> out = fips_op (firstn (aes_size (length key)) key) (Dec src)) /\
      ((2 + 15 * (length src / 16) <= count_occ Nat.eq_dec sch i)%nat ->
       nth_error ts' i = Some (ADone (fips_op (firstn (aes_size (length key)) key) (Dec src)))).
Proof. exact (aes_shared_dec key srcs sch). Qed.
Print Assumptions C85_decrypt.

Example C85_ex_threads : bytes (map Z.of_nat (seq 0 16)) /\ Forall bytes [map Z.of_nat (seq 32 16); map Z.of_nat (seq 48 32)].
Proof. split; [apply seq_bytes; lia|]. constructor; [apply seq_bytes; lia|]. constructor; [apply seq_bytes; lia|]. constructor. Qed.

(** On a context that has not decrypted yet two threads can both turn the key round:
    both results are wrong, and so is what a later call gives. *)
Theorem C85_decrypt_refuted : exists key src c sch c' a b, bytes key /\ length key = 16%nat /\ bytes src /\ length src = 16%nat /\ aes_key_set key = Ok c /\
  sched aes_step c [AStart false src; AStart false src] sch = Ok (c', [ADone a; ADone b]) /\
  a <> fips_op key (Dec src) /\ b <> fips_op key (Dec src) /\ snd (aes_decrypt c' src) <> fips_op key (Dec src).
Proof. exact aes_race. Qed.
Print Assumptions C85_decrypt_refuted.

(** A thread that decrypts while another encrypts can make the other read past the
    round keys, for every key and source: the flag is a bit of the number of rounds. *)
Theorem C85_mixed_refuted : forall key src c, aes_key_set key = Ok c -> (16 <= length src)%nat -> dec c = false ->
  exists sch, sched aes_step c [AStart true src; AStart false []] sch = UB.
Proof. exact aes_race_ub. Qed.
Print Assumptions C85_mixed_refuted.
Example C85_mixed_ex : (do c <- aes_key_set (map Z.of_nat (seq 0 16)); Ok (dec c)) = Ok false.
Proof. vm_compute. reflexivity. Qed.

(** The generator under a lock: whatever the order, every request gets the bytes of
    the stream after those of the requests served before it. *)
Theorem C85_locked : forall seed lo sizes order K, bytes seed -> NoDup order -> (forall i, In i order -> i < length sizes)%nat ->
  (forall n, In n sizes -> 4 * n + 8 <= K)%nat ->
  exists p g ts', prng_init lo seed = Ok p /\
    sched prng_step (true, p) (map PStart sizes) (concat (map (fun i => repeat i K) order)) = Ok (g, ts') /\
    forall j i, nth_error order j = Some i ->
      nth_error ts' i = Some (PDone (map (ctr_byte (fips_cipher (seed_part 0 seed)) (be_val (seed_part 1 seed)))
        (seq (list_sum (map (fun i => nth i sizes 0%nat) (firstn j order))) (nth i sizes 0%nat)))).
Proof. exact prng_locked. Qed.
Print Assumptions C85_locked.
Example C85_locked_ex : NoDup [2; 0; 1]%nat /\ (forall i, In i [2; 0; 1] -> i < length [5; 40; 16])%nat /\ (forall n, In n [5; 40; 16] -> 4 * n + 8 <= 168)%nat.
Proof.
  split; [|split].
  - repeat constructor; cbn [In]; lia.
  - intros i H. cbn [In length] in *. lia.
  - intros n H. cbn [In] in H. lia.
Qed.

(** The same holds when nobody has initialised the generator, whatever its memory holds:
    the first thread does it, and the bytes are those of the key and counter of zeros. *)
Theorem C85_first : forall p sizes order K, NoDup order -> (forall i, In i order -> i < length sizes)%nat ->
  (forall n, In n sizes -> 4 * n + 9 <= K)%nat ->
  exists g ts', sched prng_step (false, p) (map PStart sizes) (concat (map (fun i => repeat i K) order)) = Ok (g, ts') /\
    forall j i, nth_error order j = Some i ->
      nth_error ts' i = Some (PDone (map (ctr_byte (fips_cipher (repeat 0 16)) 0)
        (seq (list_sum (map (fun i => nth i sizes 0%nat) (firstn j order))) (nth i sizes 0%nat)))).
Proof. exact prng_first. Qed.
Print Assumptions C85_first.
Example C85_first_ex : NoDup [2; 0; 1]%nat /\ (forall i, In i [2; 0; 1] -> i < length [5; 40; 16])%nat /\ (forall n, In n [5; 40; 16] -> 4 * n + 9 <= 169)%nat.
Proof.
  split; [|split].
  - repeat constructor; cbn [In]; lia.
  - intros i H. cbn [In length] in *. lia.
  - intros n H. cbn [In] in H. lia.
Qed.
(** But a lock around the drawing alone is not enough then: a thread that has read the
    flag and is overtaken by a whole call of another initialises again, and both get the
    same bytes. *)
Theorem C85_init_refuted : forall p siz, exists sch g b, sched prng_step (false, p) [PStart siz; PStart siz] sch = Ok (g, [PDone b; PDone b]) /\
  length b = siz /\ exists k, sch = [1]%nat ++ repeat 0%nat k ++ repeat 1%nat k.
Proof. exact prng_twice. Qed.
Print Assumptions C85_init_refuted.

(** Without a lock two threads can get the same bytes, whatever the seed and the number
    of bytes ... *)
Theorem C85_same_refuted : forall seed lo siz, bytes seed -> exists p sch g b, prng_init lo seed = Ok p /\
  sched prng_step (true, p) [PStart siz; PStart siz] sch = Ok (g, [PDone b; PDone b]) /\ length b = siz.
Proof. exact prng_same. Qed.
Print Assumptions C85_same_refuted.
(** ... where one after the other would get different blocks. *)
Theorem C85_block_refuted : forall seed lo, bytes seed -> exists p sch g b b', prng_init lo seed = Ok p /\
  sched prng_step (true, p) [PStart 16; PStart 16] sch = Ok (g, [PDone b; PDone b]) /\ prng_rands (Some p) [16; 16]%nat = Ok [b; b'] /\ b <> b'.
Proof. exact prng_race. Qed.
Print Assumptions C85_block_refuted.
(** And they can read past the sixteen bytes kept from the last block. *)
Theorem C85_read_refuted : forall seed lo, bytes seed -> exists p p' o sch, prng_init lo seed = Ok p /\ prng_rand (Some p) 15 = Ok (p', o) /\
  sched prng_step (true, p') [PStart 1; PStart 1] sch = UB.
Proof. exact prng_race_ub. Qed.
Print Assumptions C85_read_refuted.

(** What it costs: two signatures made from the same draw, of messages whose numbers
    differ, have one solution for the private key. *)
Theorem C85_dsa_nonce : forall p q g x pub bin m1 m2 r0 s0 r0' s0', 1 < p -> prime q -> q < 2 ^ 512 -> draw_for q bin -> bytes m1 -> bytes m2 ->
  let c := {| dsa_p := ofZ p; dsa_q := ofZ q; dsa_g := ofZ g; dsa_pvt := ofZ x; dsa_pub := pub |} in
  let z1 := be_val (firstn (8 * used (ofZ q)) m1) in let z2 := be_val (firstn (8 * used (ofZ q)) m2) in
  exists r s1 s2, dsa_sign c r0 s0 bin m1 = Ok (0, ofZ r, ofZ s1) /\ dsa_sign c r0' s0' bin m2 = Ok (0, ofZ r, ofZ s2) /\
  ((r * (z1 - z2)) mod q <> 0 -> forall x', (x' * (r * (s1 - s2))) mod q = (s2 * z1 - s1 * z2) mod q <-> x' mod q = x mod q).
Proof. exact dsa_nonce. Qed.
Print Assumptions C85_dsa_nonce.
Theorem C85_ecdsa_nonce : forall p a b am G n d pub bin m1 m2 r0 s0 r0' s0' k, a_rep am a -> ecdsa_domain p a b G n -> bytes m1 -> bytes m2 ->
  rand_range false 8 (ofZ n) bin = Ok (ofZ k) -> 0 < k < n ->
  let c := {| sa_grp := egrp p am b G n; sa_d := ofZ d; sa_q := pub |} in
  let z1 := be_val (firstn (8 * used (ofZ n)) m1) in let z2 := be_val (firstn (8 * used (ofZ n)) m2) in
  exists r s1 s2, ecdsa_sign c r0 s0 bin m1 = Ok (0, ofZ r, ofZ s1) /\ ecdsa_sign c r0' s0' bin m2 = Ok (0, ofZ r, ofZ s2) /\
  ((r * (z1 - z2)) mod n <> 0 -> forall d', (d' * (r * (s1 - s2))) mod n = (s2 * z1 - s1 * z2) mod n <-> d' mod n = d mod n).
Proof. exact ecdsa_nonce. Qed.
Print Assumptions C85_ecdsa_nonce.
(** DSA with q = 13: the signatures of 1 and of 4 from one draw *)
Example C85_nonce_ex : draw_for 13 [7] /\
  match dsa_sign {| dsa_p := ofZ 3329; dsa_q := ofZ 13; dsa_g := ofZ 2970; dsa_pvt := ofZ 5; dsa_pub := ofZ 0 |} (ofZ 0) (ofZ 0) [7] [1],
        dsa_sign {| dsa_p := ofZ 3329; dsa_q := ofZ 13; dsa_g := ofZ 2970; dsa_pvt := ofZ 5; dsa_pub := ofZ 0 |} (ofZ 0) (ofZ 0) [7] [4] with
  | Ok (_, r, s1), Ok (_, _, s2) => negb ((mval r * (1 - 4)) mod 13 =? 0) && ((5 * (mval r * (mval s1 - mval s2))) mod 13 =? (mval s2 * 1 - mval s1 * 4) mod 13)
  | _, _ => false
  end = true.
Proof. split; [split; [repeat constructor; unfold byte; lia|]|]; vm_compute; reflexivity. Qed.
Example C85_ecdsa_ex : ecdsa_domain 23 1 19 (Some (2, 11)) 19 /\ rand_range false 8 (ofZ 19) [8] = Ok (ofZ 5) /\ 0 < 5 < 19.
Proof. split; [exact PropEcp.ex_domain|]. split; [vm_compute; reflexivity|lia]. Qed.
