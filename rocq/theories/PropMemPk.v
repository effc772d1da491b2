(** C79 and C80: RSA, Diffie-Hellman, ElGamal and DSA on objects in memory, with
    allocations that may be refused.  The vocabulary is in MemSpec.v and
    MemPkSpec.v; [n] is the first number that is not an object of the caller. *)
From Coq Require Import Znumtheory.
From Verif Require Import Base BytesSpec MpiModel MpiSpec MpiDivModel MpiIOModel MpiTextSpec MpiCanon PkModel PkSpec MemModel MemSpec Mem MemAlgSpec MemEcpSpec MemPkModel MemPkSpec MemFair MemRsa MemRsaUse MemDsa MemElgamal MemPkUse MemPkFail PropPk.

(** * C79: RSA, Diffie-Hellman, ElGamal verification, any allocations refused *)
(** A message comes back, as far as encryption and decryption give a result. *)
Theorem C79_rsa_partial : forall N E D e1 s1 n1 c1 e2 s2 n2 c2 m rnd, rsa_valid N E D -> rsa_len N < 2 ^ 64 ->
  calm n1 s1 -> (c1 + 2 < n1)%nat -> holding s1 c1 [N; E; D] -> calm n2 s2 -> (c2 + 2 < n2)%nat -> holding s2 c2 [N; E; D] ->
  bytes m -> (0 < length m)%nat -> Z.of_nat (length m) <= rsa_len N - 11 -> (forall i, rnd_ok (rnd i)) ->
  exists ct, Z.of_nat (length ct) = rsa_len N /\
    unless_refused (rsa_encrypt_m n1 c1 PV15 m rnd) e1 s1 (returns e1 n1 (Err (-1)) (Ok ct) s1) /\
    unless_refused (rsa_decrypt_m n2 c2 PV15 ct) e2 s2 (returns e2 n2 (Err (-1)) (Ok (map Some m)) s2).
Proof. exact roundtrip_mem. Qed.
Print Assumptions C79_rsa_partial.
Theorem C79_rsa_sign_partial : forall N E D e1 s1 n1 c1 e2 s2 n2 c2 m, rsa_valid N E D -> rsa_len N < 2 ^ 64 ->
  calm n1 s1 -> (c1 + 2 < n1)%nat -> holding s1 c1 [N; E; D] -> calm n2 s2 -> (c2 + 2 < n2)%nat -> holding s2 c2 [N; E; D] ->
  bytes m -> (0 < length m)%nat -> Z.of_nat (length m) <= rsa_len N - 11 ->
  exists sg, Z.of_nat (length sg) = rsa_len N /\
    unless_refused (rsa_sign_m n1 c1 PV15 m) e1 s1 (returns e1 n1 (Err (-1)) (Ok sg) s1) /\
    unless_refused (rsa_verify_m n2 c2 PV15 sg m) e2 s2 (returns e2 n2 (Err (-1)) (Ok 0) s2).
Proof. exact sign_verify_mem. Qed.
Print Assumptions C79_rsa_sign_partial.
(** Whatever is refused, only an e-th root of the padded message is accepted. *)
Theorem C79_rsa_accept : forall N E D e s n c sg m s', rsa_valid N E D -> 1 < rsa_len N -> calm n s -> (c + 2 < n)%nat -> holding s c [N; E; D] ->
  bytes sg -> Z.of_nat (length sg) = rsa_len N -> bytes m ->
  rsa_verify_m n c PV15 sg m e s = Ok (Ok 0, s') ->
  exists k, Z.of_nat (length (pkcs_block 1 (repeat 255 k) m)) = rsa_len N /\ be_val sg ^ E mod N = be_val (pkcs_block 1 (repeat 255 k) m).
Proof. exact accept_mem. Qed.
Print Assumptions C79_rsa_accept.
(** The token, and the secret from the other party's token. *)
Theorem C79_dh_agree_partial : forall e s n c p g x Y K, calm n s -> (c + 4 < n)%nat -> holding s c [p; g; x; Y; K] -> 1 < p -> 0 <= x ->
  unless_refused (dh_agree_m n c) e s (after e n (c + 3) true (ofZ (g ^ x mod p)) s).
Proof. exact dh_agree_fair. Qed.
Print Assumptions C79_dh_agree_partial.
Theorem C79_dh_secret_partial : forall e s n c p g x y K, calm n s -> (c + 4 < n)%nat -> holding s c [p; g; x; g ^ y mod p; K] -> 1 < p -> 0 <= x -> 0 <= y ->
  unless_refused (dh_finalize_m n c) e s (after e n (c + 4) true (ofZ (g ^ (x * y) mod p)) s).
Proof. exact dh_secret_fair. Qed.
Print Assumptions C79_dh_secret_partial.
Theorem C79_elgamal_verify_partial : forall e s0 n c r s p g y d rv sv m, calm n s0 -> (c + 3 < n)%nat -> (r < n)%nat -> (s < n)%nat ->
  holding s0 c [p; g; y; d] -> has s0 r (ofZ rv) -> has s0 s (ofZ sv) -> 1 < p -> 0 <= rv -> 0 <= sv -> bytes m ->
  unless_refused (eg_verify2_m n c r s m) e s0
    (returns e n (-1) (if ((Z.of_nat (length m) <=? count_bytes (ofZ p)) && ((y ^ rv * rv ^ sv) mod p =? g ^ be_val m mod p))%bool then 0 else -1) s0).
Proof. exact eg_verify_fair. Qed.
Print Assumptions C79_elgamal_verify_partial.

(** A shelf meets the hypotheses on states. *)
Lemma shelf_has l i v : nth_error l i = Some v -> has (shelf l) i (ofZ v).
Proof.
  intro E. eexists. split; [unfold shelf; cbn [mem]; exact (map_nth_error _ _ _ E)|]. cbn [o_us o_da]. split; [apply Nat.le_refl|].
  unfold view. cbn [o_sg o_us o_da]. unfold used. rewrite firstn_all. destruct (ofZ v). reflexivity.
Qed.
Lemma shelf_calm l : calm (length l) (shelf l).
Proof. intros i Hi. left. unfold shelf. cbn [mem]. apply nth_error_None. rewrite map_length. exact Hi. Qed.
Lemma shelf_holding l : holding (shelf l) 0 l.
Proof.
  enough (H : forall l1 l2, l1 ++ l2 = l -> holding (shelf l) (length l1) l2) by exact (H [] l eq_refl).
  intros l1 l2. revert l1. induction l2 as [|v l2 IH]; intros l1 E; [exact I|]. split.
  - apply shelf_has. rewrite <- E, nth_error_app2, Nat.sub_diag by apply Nat.le_refl. reflexivity.
  - specialize (IH (l1 ++ [v])). rewrite app_length, Nat.add_1_r in IH. apply IH. rewrite <- app_assoc. exact E.
Qed.
(** One party has all the memory, the other's last allocations are refused. *)
Example C79_rsa_ex : let s := shelf [ex_n; 65537; ex_d] in
  exists ct, length ct = 12%nat /\ unless_refused (rsa_encrypt_m 3 0 PV15 [200] ex_rnd) plenty s (returns plenty 3 (Err (-1)) (Ok ct) s) /\
    unless_refused (rsa_decrypt_m 3 0 PV15 ct) (first 20) s (returns (first 20) 3 (Err (-1)) (Ok [Some 200]) s).
Proof.
  intro s. assert (C : calm 3 s) by exact (shelf_calm [ex_n; 65537; ex_d]). assert (H : holding s 0 [ex_n; 65537; ex_d]) by apply shelf_holding.
  assert (M : bytes [200]) by (repeat constructor; unfold byte; lia). clearbody s.
  destruct (C79_rsa_partial ex_n 65537 ex_d plenty s 3 0 (first 20) s 3 0 [200] ex_rnd ex_valid ltac:(reflexivity) C (Nat.lt_succ_diag_r 2) H C (Nat.lt_succ_diag_r 2) H M (Nat.lt_succ_diag_r 0) ltac:(discriminate) ex_rnd_ok) as (ct & L & A & R).
  exists ct. rewrite ex_len in L. split; [clear - L; lia|]. split; [exact A|exact R].
Qed.
Example C79_rsa_sign_ex : let s := shelf [ex_n; 65537; ex_d] in
  exists sg, length sg = 12%nat /\ unless_refused (rsa_sign_m 3 0 PV15 [200]) plenty s (returns plenty 3 (Err (-1)) (Ok sg) s) /\
    unless_refused (rsa_verify_m 3 0 PV15 sg [200]) (first 20) s (returns (first 20) 3 (Err (-1)) (Ok 0) s).
Proof.
  intro s. assert (C : calm 3 s) by exact (shelf_calm [ex_n; 65537; ex_d]). assert (H : holding s 0 [ex_n; 65537; ex_d]) by apply shelf_holding.
  assert (M : bytes [200]) by (repeat constructor; unfold byte; lia). clearbody s.
  destruct (C79_rsa_sign_partial ex_n 65537 ex_d plenty s 3 0 (first 20) s 3 0 [200] ex_valid ltac:(reflexivity) C (Nat.lt_succ_diag_r 2) H C (Nat.lt_succ_diag_r 2) H M (Nat.lt_succ_diag_r 0) ltac:(discriminate)) as (ct & L & A & R).
  exists ct. rewrite ex_len in L. split; [clear - L; lia|]. split; [exact A|exact R].
Qed.
Example C79_dh_ex : let s := shelf [3329; 3; 5; 3 ^ 7 mod 3329; 0] in calm 5 s /\ holding s 0 [3329; 3; 5; 3 ^ 7 mod 3329; 0] /\
  wp (dh_finalize_m 5 0) plenty s (fun rc s' => rc = 0 /\ has s' 4 (ofZ (3 ^ (5 * 7) mod 3329))).
Proof.
  intro s. assert (C : calm 5 s) by exact (shelf_calm [3329; 3; 5; 3 ^ 7 mod 3329; 0]). assert (H : holding s 0 [3329; 3; 5; 3 ^ 7 mod 3329; 0]) by apply shelf_holding.
  split; [exact C|]. split; [exact H|]. pose proof (C79_dh_secret_partial plenty s 5 0 3329 3 5 7 0 C ltac:(lia) H ltac:(lia) ltac:(lia) ltac:(lia)) as R.
  clearbody s. revert R. generalize (dh_finalize_m 5 0). generalize (ofZ (3 ^ (5 * 7) mod 3329)). intros v f R.
  unfold unless_refused in R. unfold wp. destruct (f plenty s) as [(rc & s')| | |]; auto.
  - destruct R as (_ & _ & [R|(_ & (k & _ & F) & _)]); [exact R|discriminate F].
  - destruct R as (k & _ & F). discriminate F.
Qed.
Example C79_elgamal_ex : let s := shelf [3329; 3; 3 ^ 5 mod 3329; 5; 3 ^ 7 mod 3329; 1] in calm 6 s /\ holding s 0 [3329; 3; 3 ^ 5 mod 3329; 5] /\
  has s 4 (ofZ (3 ^ 7 mod 3329)) /\ has s 5 (ofZ 1).
Proof. intro s. split; [exact (shelf_calm [3329; 3; 3 ^ 5 mod 3329; 5; 3 ^ 7 mod 3329; 1])|]. repeat split; (apply shelf_has; reflexivity). Qed.

(** Each of them has undefined behaviour when memory runs out at the wrong
    moment: the first allocation for Diffie-Hellman, the third for ElGamal, for
    RSA decryption and verification the fifth, or a later one if the block fills
    more than the eight digits allocated first. *)
Theorem C79_dh_refuted : forall e s n c p g x Y K, (c + 4 < n)%nat -> holding s c [p; g; x; Y; K] -> 1 < p -> 0 <= x -> grant e (tick s) = false ->
  dh_agree_m n c e s = UB /\ dh_finalize_m n c e s = UB.
Proof. intros e s n c p g x Y K L H P X G. exact (conj (dh_agree_wild e s n c p g x Y K L H P X G) (dh_finalize_wild e s n c p g x Y K L H P X G)). Qed.
Print Assumptions C79_dh_refuted.
Theorem C79_elgamal_refuted : forall e s0 n c r s p g y d rv sv m, calm n s0 -> (c + 3 < n)%nat -> (r < n)%nat -> (s < n)%nat ->
  holding s0 c [p; g; y; d] -> has s0 r (ofZ rv) -> has s0 s (ofZ sv) -> 0 < p -> 0 <= rv -> Z.of_nat (length m) <= count_bytes (ofZ p) ->
  (forall i, (i < 2)%nat -> grant e (tick s0 + i) = true) -> grant e (tick s0 + 2) = false ->
  eg_verify2_m n c r s m e s0 = UB.
Proof. exact eg_verify_wild. Qed.
Print Assumptions C79_elgamal_refuted.
Theorem C79_rsa_refuted : forall e s n c pad inp sign N E D, calm n s -> (c + 2 < n)%nat -> holding s c [N; E; D] -> 0 < N -> 0 <= E -> 0 <= D ->
  count_bytes (ofZ N) <= Z.of_nat (length inp) -> bytes inp ->
  let j := (4 + more 8 (firstn (Z.to_nat (count_bytes (ofZ N))) inp))%nat in
  (forall i, (i < j)%nat -> grant e (tick s + i) = true) -> grant e (tick s + j) = false -> rsa_decrypt_gen_m n c pad inp sign e s = UB.
Proof. exact rsa_decrypt_wild. Qed.
Print Assumptions C79_rsa_refuted.
Example C79_refuted_ex : grant (first 0) 0 = false /\ (forall i, (i < 2)%nat -> grant (first 2) i = true) /\ grant (first 2) 2 = false /\
  more 8 (repeat 7 12) = 0%nat /\ (forall i, (i < 4)%nat -> grant (first 4) i = true) /\ grant (first 4) 4 = false /\
  rsa_decrypt_gen_m 3 0 PV15 (repeat 7 12) false (first 4) (shelf [ex_n; 65537; ex_d]) = UB /\
  rsa_decrypt_gen_m 3 0 PV15 (repeat 7 12) true (first 4) (shelf [ex_n; 65537; ex_d]) = UB.
Proof.
  assert (G : forall k i, (i < k)%nat -> grant (first k) i = true) by (intros k i Hi; exact (proj2 (Nat.ltb_lt i k) Hi)).
  split; [reflexivity|]. split; [exact (G 2%nat)|]. split; [reflexivity|]. split; [reflexivity|]. split; [exact (G 4%nat)|]. split; [reflexivity|].
  assert (R : forall sign, rsa_decrypt_gen_m 3 0 PV15 (repeat 7 12) sign (first 4) (shelf [ex_n; 65537; ex_d]) = UB).
  { intro sign. apply (C79_rsa_refuted (first 4) (shelf [ex_n; 65537; ex_d]) 3 0 PV15 (repeat 7 12) sign ex_n 65537 ex_d).
    - exact (shelf_calm [ex_n; 65537; ex_d]).
    - lia.
    - apply shelf_holding.
    - reflexivity.
    - discriminate.
    - discriminate.
    - vm_compute. discriminate.
    - repeat constructor; unfold byte; lia.
    - exact (G 4%nat).
    - reflexivity. }
  split; apply R.
Qed.

(** * C80: signatures of DSA and ElGamal *)
(** While no allocation is refused: DSA signs as in C55, verification accepts. *)
Theorem C80_dsa_sign_partial : forall e s0 n c r s p q g x y bin m, (forall k, grant e k = true) -> calm n s0 -> (c + 4 < n)%nat -> (r < n)%nat -> (s < n)%nat ->
  r <> s -> ~ (c <= r < c + 5)%nat -> ~ (c <= s < c + 5)%nat -> holding s0 c [p; q; g; x; y] -> usable s0 r -> usable s0 s ->
  1 < p -> prime q -> q < 2 ^ 512 -> draw_for q bin -> bytes m ->
  exists k ki, dsa_secret (ofZ q) bin = Ok (ofZ k) /\ 0 < k < q /\ (k * ki) mod q = 1 /\
  let z := be_val (firstn (8 * used (ofZ q)) m) in
  wp (dsa_sign_m n c r s bin m) e s0 (fun rc s' => rc = 0 /\ has s' r (ofZ ((g ^ k mod p) mod q)) /\ has s' s (ofZ (((x * ((g ^ k mod p) mod q) + z) * ki) mod q)) /\
    calm n s' /\ (forall u, (u < n)%nat -> u <> r -> u <> s -> mem s' u = mem s0 u)).
Proof. exact dsa_sign_mem. Qed.
Print Assumptions C80_dsa_sign_partial.
Theorem C80_dsa_partial : forall e s0 n c r s p q g x bin m, (forall k, grant e k = true) -> calm n s0 -> (c + 4 < n)%nat -> (r < n)%nat -> (s < n)%nat ->
  r <> s -> ~ (c <= r < c + 5)%nat -> ~ (c <= s < c + 5)%nat -> holding s0 c [p; q; g; x; g ^ x mod p] -> usable s0 r -> usable s0 s ->
  dsa_domain p q g -> q < 2 ^ 512 -> 0 <= x -> draw_for q bin -> bytes m ->
  wp (dsa_sign_m n c r s bin m) e s0 (fun rc s1 => rc = 0 /\
    wp (dsa_verify_m n c r s m) e s1 (fun rc s2 => rc = 0 /\ untouched n s1 s2)).
Proof. exact dsa_use. Qed.
Print Assumptions C80_dsa_partial.
(** The verdict on any signature is the one C56 describes; no object changes. *)
Theorem C80_dsa_verify_partial : forall e s0 n c r s p q g x y rv sv m, (forall k, grant e k = true) -> calm n s0 -> (c + 4 < n)%nat -> (r < n)%nat -> (s < n)%nat ->
  holding s0 c [p; q; g; x; y] -> has s0 r (ofZ rv) -> has s0 s (ofZ sv) -> 1 < p -> 1 < q -> bytes m ->
  wp (dsa_verify_m n c r s m) e s0 (fun rc s' =>
    dsa_verify {| dsa_p := ofZ p; dsa_q := ofZ q; dsa_g := ofZ g; dsa_pvt := ofZ x; dsa_pub := ofZ y |} (ofZ rv) (ofZ sv) m = Ok rc /\ untouched n s0 s').
Proof. exact dsa_verify_mem. Qed.
Print Assumptions C80_dsa_verify_partial.
(** ElGamal: the numbers drawn first have a divisor in common with p - 1, the next
    one has not. *)
Theorem C80_elgamal_sign_partial : forall e s0 n c r s p g y d pre bin rest m k, (forall i, grant e i = true) -> calm n s0 -> (c + 3 < n)%nat -> (r < n)%nat -> (s < n)%nat ->
  r <> s -> ~ (c <= r < c + 4)%nat -> ~ (c <= s < c + 4)%nat -> holding s0 c [p; g; y; d] -> usable s0 r -> usable s0 s ->
  2 < p -> bytes m -> Z.of_nat (length m) <= rsa_len p ->
  (forall b, In b pre -> exists k', drawn (p - 1) b k' /\ Z.gcd k' (p - 1) <> 1) -> (length pre < 1024)%nat ->
  drawn (p - 1) bin k -> 0 <= k -> Z.gcd k (p - 1) = 1 ->
  exists ki, 0 <= ki < p - 1 /\ (k * ki) mod (p - 1) = 1 /\
  wp (eg_sign2_m n c r s (pre ++ bin :: rest) m) e s0 (fun rc s' => rc = 0 /\ has s' r (ofZ (g ^ k mod p)) /\ has s' s (ofZ (((be_val m - d * (g ^ k mod p)) * ki) mod (p - 1))) /\
    calm n s' /\ (forall u, (u < n)%nat -> u <> r -> u <> s -> mem s' u = mem s0 u)).
Proof. exact eg_sign_any. Qed.
Print Assumptions C80_elgamal_sign_partial.
(** What ElGamal signed is accepted, unless verification runs out of memory. *)
Theorem C80_elgamal_partial : forall e1 e2 s0 n c r s p g d pre bin rest m k, (forall i, grant e1 i = true) -> calm n s0 -> (c + 3 < n)%nat -> (r < n)%nat -> (s < n)%nat ->
  r <> s -> ~ (c <= r < c + 4)%nat -> ~ (c <= s < c + 4)%nat -> holding s0 c [p; g; g ^ d mod p; d] -> usable s0 r -> usable s0 s ->
  prime p -> 2 < p -> ~ (p | g) -> 0 <= d -> bytes m -> Z.of_nat (length m) <= rsa_len p ->
  (forall b, In b pre -> exists k', drawn (p - 1) b k' /\ Z.gcd k' (p - 1) <> 1) -> (length pre < 1024)%nat ->
  drawn (p - 1) bin k -> 0 <= k < p - 1 -> Z.gcd k (p - 1) = 1 ->
  wp (eg_sign2_m n c r s (pre ++ bin :: rest) m) e1 s0 (fun rc s1 => rc = 0 /\
    unless_refused (eg_verify2_m n c r s m) e2 s1 (returns e2 n (-1) 0 s1)).
Proof. exact eg_use. Qed.
Print Assumptions C80_elgamal_partial.
Example C80_dsa_ex : let s := shelf [3329; 13; 3 ^ 256 mod 3329; 5; (3 ^ 256 mod 3329) ^ 5 mod 3329; 1; 1] in
  wp (dsa_sign_m 7 0 5 6 [9] [1; 2; 3]) plenty s (fun rc s1 => rc = 0 /\ wp (dsa_verify_m 7 0 5 6 [1; 2; 3]) plenty s1 (fun rc s2 => rc = 0 /\ untouched 7 s1 s2)).
Proof.
  intro s. assert (H : forall i v, nth_error [3329; 13; 3 ^ 256 mod 3329; 5; (3 ^ 256 mod 3329) ^ 5 mod 3329; 1; 1] i = Some v -> has s i (ofZ v)) by apply shelf_has.
  apply (C80_dsa_partial plenty s 7 0 5 6 3329 13 (3 ^ 256 mod 3329) 5 [9] [1; 2; 3]); try lia.
  - reflexivity.
  - exact (shelf_calm [3329; 13; 3 ^ 256 mod 3329; 5; (3 ^ 256 mod 3329) ^ 5 mod 3329; 1; 1]).
  - repeat split; (apply H; reflexivity).
  - eexists. apply H. reflexivity.
  - eexists. apply H. reflexivity.
  - apply C55_ex.
  - split; [repeat constructor; unfold byte; lia|reflexivity].
  - repeat constructor; unfold byte; lia.
Qed.
Lemma drawn_3328 : drawn 3328 [0; 2] 2050 /\ drawn 3328 [0; 7] 2055.
Proof.
  assert (D : forall b, byte b -> draw_for 3328 [0; b]) by (intros b Hb; split; [constructor; [unfold byte; lia|constructor; [exact Hb|constructor]]|reflexivity]).
  split; (split; [apply D; unfold byte; lia|split; [reflexivity|discriminate]]).
Qed.
Example C80_elgamal_ex : let s := shelf [3329; 3; 3 ^ 5 mod 3329; 5; 1; 1] in
  wp (eg_sign2_m 6 0 4 5 [[0; 2]; [0; 7]] [1; 2]) plenty s (fun rc s1 => rc = 0 /\
    unless_refused (eg_verify2_m 6 0 4 5 [1; 2]) (first 30) s1 (returns (first 30) 6 (-1) 0 s1)).
Proof.
  intro s. assert (H : forall i v, nth_error [3329; 3; 3 ^ 5 mod 3329; 5; 1; 1] i = Some v -> has s i (ofZ v)) by apply shelf_has.
  apply (C80_elgamal_partial plenty (first 30) s 6 0 4 5 3329 3 5 [[0; 2]] [0; 7] [] [1; 2] 2055); try lia.
  - reflexivity.
  - exact (shelf_calm [3329; 3; 3 ^ 5 mod 3329; 5; 1; 1]).
  - repeat split; (apply H; reflexivity).
  - eexists. apply H. reflexivity.
  - eexists. apply H. reflexivity.
  - exact prime_3329.
  - intros (k & E). lia.
  - repeat constructor; unfold byte; lia.
  - vm_compute. discriminate.
  - intros b [<-|[]]. exists 2050. split; [apply drawn_3328|discriminate].
  - cbn. lia.
  - apply drawn_3328.
  - reflexivity.
Qed.

(** DSA verification accepts any signature of any message under any key when its
    first four allocations are granted and no other. *)
Theorem C80_dsa_verify_refuted : forall e s0 n c r s m vq vs, calm n s0 -> (c + 1 < n)%nat -> (s < n)%nat -> has s0 (c + 1) vq -> has s0 s vs ->
  (forall i, (i < 4)%nat -> grant e (tick s0 + i) = true) -> (forall i, (4 <= i)%nat -> grant e (tick s0 + i) = false) ->
  wp (dsa_verify_m n c r s m) e s0 (fun rc s' => rc = 0 /\ untouched n s0 s').
Proof. exact dsa_verify_lost. Qed.
Print Assumptions C80_dsa_verify_refuted.
(** DSA signing reports success and leaves the signature as it was when its first
    two allocations are granted and no other. *)
Theorem C80_dsa_sign_refuted : forall e s0 n c r s bin m vq, calm n s0 -> (c + 1 < n)%nat -> has s0 (c + 1) vq ->
  (forall i, (i < 2)%nat -> grant e (tick s0 + i) = true) -> (forall i, (2 <= i)%nat -> grant e (tick s0 + i) = false) ->
  wp (dsa_sign_m n c r s bin m) e s0 (fun rc s' => rc = 0 /\ untouched n s0 s').
Proof. exact dsa_sign_lost. Qed.
Print Assumptions C80_dsa_sign_refuted.
(** The same signature, refused with memory, accepted without. *)
Example C80_refuted_ex : let s := shelf [3329; 13; 3 ^ 256 mod 3329; 5; (3 ^ 256 mod 3329) ^ 5 mod 3329; 1; 1] in
  wp (dsa_verify_m 7 0 5 6 [1; 2; 3]) (first 4) s (fun rc s' => rc = 0 /\ untouched 7 s s') /\
  wp (dsa_verify_m 7 0 5 6 [1; 2; 3]) plenty s (fun rc s' => rc = -1 /\ untouched 7 s s').
Proof.
  intro s. assert (H : forall i v, nth_error [3329; 13; 3 ^ 256 mod 3329; 5; (3 ^ 256 mod 3329) ^ 5 mod 3329; 1; 1] i = Some v -> has s i (ofZ v)) by apply shelf_has.
  assert (C : calm 7 s) by exact (shelf_calm [3329; 13; 3 ^ 256 mod 3329; 5; (3 ^ 256 mod 3329) ^ 5 mod 3329; 1; 1]). split.
  - apply (C80_dsa_verify_refuted (first 4) s 7 0 5 6 [1; 2; 3] (ofZ 13) (ofZ 1)); auto; try lia; try (apply H; reflexivity).
    + intros i Hi. exact (proj2 (Nat.ltb_lt i 4) Hi).
    + intros i Hi. exact (proj2 (Nat.ltb_ge i 4) Hi).
  - eapply wp_mono; [apply (C80_dsa_verify_partial plenty s 7 0 5 6 3329 13 (3 ^ 256 mod 3329) 5 ((3 ^ 256 mod 3329) ^ 5 mod 3329) 1 1 [1; 2; 3]); try lia|].
    + reflexivity.
    + exact C.
    + repeat split; (apply H; reflexivity).
    + apply H; reflexivity.
    + apply H; reflexivity.
    + repeat constructor; unfold byte; lia.
    + intros rc s' (E & U). split; [|exact U]. match type of E with ?x = _ => assert (V : x = Ok (-1)) by (vm_compute; reflexivity) end. rewrite V in E. injection E. auto.
Qed.
