(** C77 and C78: elliptic curves, ECDH and ECDSA on objects in memory, with results
    that may be operands and allocations that may be refused.  The vocabulary is
    in MemSpec.v and MemEcpSpec.v; [n] is the first number that is not an object
    of the caller. *)
From Coq Require Import Znumtheory.
From Verif Require Import Base BytesSpec MpiModel MpiSpec MpiIOModel MpiTextSpec EcpModel EcSpec EcZ EcpSpec MemModel MemSpec MemAlgSpec MemEcpModel MemEcpSpec Mem MemOps MemLeaf MemEcp MemEcpMul MemBin MemEcdsa MemEcpFail EcPk EcpMul MpiCanon PropEcp.

(** * C77: points *)
(** Doubling, addition and multiplication, while no allocation is refused.  The
    destination may be an operand; the group's base point may be one too. *)
Theorem C77_dbl_partial : forall p a b am G N e s n r x g P, a_rep am a -> good_curve p a b -> (forall k, grant e k = true) -> calm n s ->
  (r + 2 < n)%nat -> (x + 2 < n)%nat -> (g + 6 < n)%nat -> usable_pt s r -> point s x P -> group s g p am b G N -> same_or_apart r x ->
  on_curve p a b P -> (forall x, P <> Some (x, 0)) ->
  wp (ecp_dbl_m n r x g) e s (result n r (ec_add p a P P) s).
Proof. intros p a b am G N e s n r x g P HA HG. exact (dbl_mem p a b am HA HG G N e s n r x g P). Qed.
Print Assumptions C77_dbl_partial.
Theorem C77_add_partial : forall p a b am G N e s n r x y g P Q, a_rep am a -> good_curve p a b -> (forall k, grant e k = true) -> calm n s ->
  (r + 2 < n)%nat -> (x + 2 < n)%nat -> (y + 2 < n)%nat -> (g + 6 < n)%nat -> usable_pt s r -> point s x P -> point s y Q -> group s g p am b G N ->
  same_or_apart r x -> same_or_apart r y -> on_curve p a b P -> on_curve p a b Q -> ~ (P = Q /\ exists x, P = Some (x, 0)) ->
  wp (ecp_add_m n r x y g) e s (result n r (ec_add p a P Q) s).
Proof. intros p a b am G N e s n r x y g P Q HA HG. exact (add_mem p a b am HA HG G N e s n r x y g P Q). Qed.
Print Assumptions C77_add_partial.
(** The scalar may be a coordinate of the destination. *)
Theorem C77_mul_partial : forall p a b am G N e s n r x k g P kz, a_rep am a -> good_curve p a b -> (forall i, grant e i = true) -> calm n s ->
  (r + 2 < n)%nat -> (x + 2 < n)%nat -> (k < n)%nat -> (g + 6 < n)%nat -> usable_pt s r -> point s x P -> has s k (ofZ kz) -> group s g p am b G N ->
  same_or_apart r x -> on_curve p a b P -> no_order2 p a P ->
  wp (ecp_mul_m n r x k g) e s (result n r (ec_mul p a (Z.abs kz) P) s).
Proof. exact mul_mem. Qed.
Print Assumptions C77_mul_partial.
(** Initialisation of a point and of an ECDSA context, with any allocations
    refused: on failure no object is left that owns memory and did not before. *)
Theorem C77_init : forall e s x, wp (pt_init_m x) e s (fun rc s' => (forall y, ~ (x <= y < x + 3)%nat -> mem s' y = mem s y) /\ (tick s <= tick s')%nat /\
  (rc = 0 /\ point s' x None \/
   rc = -1 /\ starved e s s' /\ (forall y, (x <= y < x + 3)%nat -> mem s' y = None \/ mem s' y = Some void \/ mem s' y = mem s y))).
Proof. intros e s x. exact (pt_init_any e x s). Qed.
Print Assumptions C77_init.
Theorem C77_ctx_init : forall e s g d q, ctx_apart g d q -> wp (ecdsa_init_m g d q) e s (fun rc s' => (forall y, ~ in_ctx g d q y -> mem s' y = mem s y) /\
  (rc = 0 /\ ctx_zero s' g d q \/
   rc = -1 /\ starved e s s' /\ (forall y, in_ctx g d q y -> mem s' y = None \/ mem s' y = Some void \/ mem s' y = mem s y))).
Proof. exact ecdsa_init_any. Qed.
Print Assumptions C77_ctx_init.
Theorem C77_ctx_clear : forall e s g d q, ctx_apart g d q -> (forall y, in_ctx g d q y -> mem s y <> None) ->
  wp (ecdsa_clear_m g d q) e s (fun _ s' => (forall y, in_ctx g d q y -> mem s' y = Some void) /\ (forall y, ~ in_ctx g d q y -> mem s' y = mem s y)).
Proof. exact ecdsa_clear_any. Qed.
Print Assumptions C77_ctx_clear.

(** The sample state meets the hypotheses. *)
Lemma sample_has x y d r s i v : nth_error [23; 1; 19; 2; 11; 1; 19; x; y; 1; d; r; s] i = Some v -> 0 < v < B -> has (sample x y d r s) i (ofZ v).
Proof.
  intros E Hv. exists (one_digit v). split; [unfold sample; cbn [mem]; apply map_nth_error; exact E|]. split; [cbn; lia|].
  unfold view, one_digit. cbn [o_sg o_us o_da firstn]. apply is_ofZ; [|unfold mval, val; cbn; lia].
  split; [|discriminate]. split; [repeat constructor; lia|]. unfold normal. cbn. lia.
Qed.
Lemma sample_group x y d r s : group (sample x y d r s) 0 23 (ofZ 1) 19 (Some (2, 11)) 19.
Proof. repeat split; (apply sample_has; [reflexivity|split; [lia|reflexivity]]). Qed.
Lemma sample_calm x y d r s : calm 13 (sample x y d r s).
Proof. intros i Hi. left. unfold sample. cbn [mem]. apply nth_error_None. rewrite map_length. cbn [length]. lia. Qed.
Example C77_ex : group (sample 4 15 5 7 12) 0 23 (ofZ 1) 19 (Some (2, 11)) 19 /\ point (sample 4 15 5 7 12) 7 (Some (4, 15)) /\ calm 13 (sample 4 15 5 7 12) /\
  wp (ecp_add_m 13 7 7 3 0) plenty (sample 4 15 5 7 12) (fun rc s' => rc = 0 /\ point s' 7 (Some (21, 20))).
Proof.
  assert (HG : group (sample 4 15 5 7 12) 0 23 (ofZ 1) 19 (Some (2, 11)) 19) by apply sample_group.
  assert (HP : point (sample 4 15 5 7 12) 7 (Some (4, 15))) by (repeat split; (apply sample_has; [reflexivity|split; [lia|reflexivity]])).
  split; [exact HG|]. split; [exact HP|]. split; [apply sample_calm|].
  eapply wp_mono; [apply (C77_add_partial 23 1 19 (ofZ 1) (Some (2, 11)) 19 plenty (sample 4 15 5 7 12) 13 7 7 3 0 (Some (4, 15)) (Some (2, 11)))|].
  - exact (ex_rep 1).
  - exact ex_good.
  - reflexivity.
  - apply sample_calm.
  - lia.
  - lia.
  - lia.
  - lia.
  - destruct HP as (P1 & P2 & P3). split; [|split]; eexists; eassumption.
  - exact HP.
  - apply HG.
  - exact HG.
  - left. reflexivity.
  - right. right. lia.
  - cbn; lia.
  - cbn; lia.
  - intros [F _]. discriminate F.
  - intros rc s' (-> & V & _). split; auto.
Qed.

(** The memory for the table of multiples refused: multiplication reports
    success, and the destination is what it was. *)
Theorem C77_mul_refuted : forall e s n r x k g P, calm n s -> (x + 2 < n)%nat -> point s x P -> P <> None ->
  grant e (tick s) = true -> grant e (S (tick s)) = true -> grant e (S (S (tick s))) = true -> grant e (S (S (S (tick s)))) = false ->
  wp (ecp_mul_m n r x k g) e s (fun rc s' => rc = 0 /\ untouched n s s').
Proof. exact mul_lost. Qed.
Print Assumptions C77_mul_refuted.
Example C77_mul_refuted_ex : grant (but [3%nat]) 0 = true /\ grant (but [3%nat]) 1 = true /\ grant (but [3%nat]) 2 = true /\ grant (but [3%nat]) 3 = false /\
  tick (sample 4 15 5 7 12) = 0%nat /\ point (sample 4 15 5 7 12) 3 (Some (2, 11)) /\ ec_mul 23 1 5 (Some (2, 11)) <> Some (4, 15).
Proof. repeat (split; [reflexivity|]). split; [apply sample_group|]. vm_compute. discriminate. Qed.

(** One refused allocation inside the modular inversion: addition and doubling report
    success with a wrong point, in the case of doubling one that is not on the curve. *)
Theorem C77_add_refuted : exists e s, group s 0 23 (ofZ 1) 19 (Some (2, 11)) 19 /\ point s 7 (Some (4, 15)) /\ calm 13 s /\
  wp (ecp_add_m 13 7 7 3 0) e s (fun rc s' => rc = 0 /\ starved e s s' /\
    option_map (fun o => mval (view o)) (mem s' 7) = Some 2 /\ option_map (fun o => mval (view o)) (mem s' 8) = Some 11) /\
  ec_add 23 1 (Some (4, 15)) (Some (2, 11)) = Some (21, 20).
Proof.
  exists (but [23%nat]), (sample 4 15 5 7 12). split; [apply sample_group|]. split; [repeat split; (apply sample_has; [reflexivity|split; [lia|reflexivity]])|].
  split; [apply sample_calm|]. split; [|vm_compute; reflexivity]. vm_compute. split; [reflexivity|]. split; [exists 23%nat; repeat split; repeat constructor|]. split; reflexivity.
Qed.
Print Assumptions C77_add_refuted.
Theorem C77_dbl_refuted : exists e s, group s 0 23 (ofZ 1) 19 (Some (2, 11)) 19 /\ point s 7 (Some (4, 15)) /\ calm 13 s /\
  wp (ecp_dbl_m 13 7 7 0) e s (fun rc s' => rc = 0 /\ starved e s s' /\
    option_map (fun o => mval (view o)) (mem s' 7) = Some 5 /\ option_map (fun o => mval (view o)) (mem s' 8) = Some 14) /\
  ~ on_curve 23 1 19 (Some (5, 14)).
Proof.
  exists (but [36%nat]), (sample 4 15 5 7 12). split; [apply sample_group|]. split; [repeat split; (apply sample_has; [reflexivity|split; [lia|reflexivity]])|].
  split; [apply sample_calm|]. split; [|intros (_ & _ & H); vm_compute in H; discriminate]. vm_compute. split; [reflexivity|]. split; [exists 36%nat; repeat split; repeat constructor|]. split; reflexivity.
Qed.
Print Assumptions C77_dbl_refuted.

(** * C78: ECDH and ECDSA *)
(** Key agreement, while no allocation is refused. *)
Theorem C78_agree_partial : forall p a b am G N e s n g d q dz, a_rep am a -> good_curve p a b -> (forall k, grant e k = true) -> calm n s ->
  (g + 6 < n)%nat -> (d < n)%nat -> (q + 2 < n)%nat -> group s g p am b G N -> has s d (ofZ dz) -> usable_pt s q -> same_or_apart q (g + 3) ->
  on_curve p a b G -> odd_order p a G -> 0 <= dz ->
  wp (ecdh_agree_m n g d q) e s (result n q (ec_mul p a dz G) s).
Proof.
  intros p a b am G N e s n g d q dz HA HG GR C Lg Ld Lq Hg Hd Uq SA OG DG Pd. rewrite <- (Z.abs_eq dz) by exact Pd.
  exact (mul_mem p a b am G N e s n q (g + 3) d g G dz HA HG GR C Lq ltac:(lia) Ld Lg Uq (proj1 (proj2 (proj2 (proj2 Hg)))) Hd Hg SA OG (odd_no_order2 p a b HG G OG DG)).
Qed.
Print Assumptions C78_agree_partial.
Theorem C78_final_partial : forall p a b am G N e s n g d q z dz Q, a_rep am a -> good_curve p a b -> (forall k, grant e k = true) -> calm n s ->
  (g + 6 < n)%nat -> (d < n)%nat -> (q + 2 < n)%nat -> (z + 2 < n)%nat -> group s g p am b G N -> has s d (ofZ dz) -> point s q Q -> usable_pt s z -> same_or_apart z q ->
  on_curve p a b Q -> odd_order p a Q -> 0 <= dz ->
  wp (ecdh_final_m n g d q z) e s (result n z (ec_mul p a dz Q) s).
Proof.
  intros p a b am G N e s n g d q z dz Q HA HG GR C Lg Ld Lq Lz Hg Hd HQ Uz SA OQ DQ Pd. rewrite <- (Z.abs_eq dz) by exact Pd.
  exact (mul_mem p a b am G N e s n z q d g Q dz HA HG GR C Lz Lq Ld Lg Uz HQ Hd Hg SA OQ (odd_no_order2 p a b HG Q OQ DQ)).
Qed.
Print Assumptions C78_final_partial.
(** Reading a number from bytes, with any allocations refused. *)
Theorem C78_load_bin : forall e s n x v buf, calm n s -> (x < n)%nat -> has s x v -> neg v = false -> bytes buf ->
  wp (load_bin_m x buf) e s (after e n x true (ofZ (be_val buf)) s).
Proof. exact load_bin_after. Qed.
Print Assumptions C78_load_bin.
(** A random number below a bound, with any allocations refused.  The last
    hypothesis keeps the top digit within the object's memory. *)
Theorem C78_rand_range : forall e n x mx bin s m v, calm n s -> (x < n)%nat -> (mx < n)%nat -> x <> mx -> has s x v -> neg v = false -> has s mx (ofZ m) -> 0 < m ->
  draw_for m bin -> (used (ofZ m) <= len s x)%nat \/ B ^ (Z.of_nat (used (ofZ m)) - 1) <= be_val bin ->
  exists r, 0 <= r < m /\ rand_range false (len s x) (ofZ m) bin = Ok (ofZ r) /\ wp (rand_range_m n x mx bin) e s (after e n x false (ofZ r) s).
Proof. exact rand_range_after. Qed.
Print Assumptions C78_rand_range.
(** Signature, while no allocation is refused: r and s are not the private key
    and the group, except that s may be the private key. *)
Theorem C78_sign_partial : forall p a b am G N e st n g d r s dz bin m k, a_rep am a -> ecdsa_domain p a b G N -> (forall i, grant e i = true) -> calm n st ->
  (g + 6 < n)%nat -> (d < n)%nat -> (r < n)%nat -> (s < n)%nat -> group st g p am b G N -> has st d (ofZ dz) -> usable st r -> usable st s ->
  r <> s -> r <> d -> ~ (g <= r < g + 7)%nat -> ~ (g <= s < g + 7)%nat -> bytes m -> draw_for N bin ->
  rand_range false 8 (ofZ N) bin = Ok (ofZ k) -> 0 < k < N -> (used (ofZ N) <= 8)%nat \/ B ^ (Z.of_nat (used (ofZ N)) - 1) <= be_val bin ->
  let z := be_val (firstn (8 * used (ofZ N)) m) in
  exists x y ki, ec_mul p a k G = Some (x, y) /\ 0 <= ki < N /\ (k * ki) mod N = 1 /\
  wp (ecdsa_sign_m n g d r s bin m) e st (fun rc s' => rc = 0 /\ has s' r (ofZ x) /\ has s' s (ofZ (((dz * x + z) * ki) mod N)) /\
    calm n s' /\ (forall x, (x < n)%nat -> x <> r -> x <> s -> mem s' x = mem st x)).
Proof. exact sign_mem. Qed.
Print Assumptions C78_sign_partial.
(** Verification, while no allocation is refused: the verdict is the equation of
    C61, and no object changes. *)
Theorem C78_verify_partial : forall p a b am G N e st n g q r s Q rv sv m, a_rep am a -> ecdsa_domain p a b G N -> (forall k, grant e k = true) -> calm n st ->
  (g + 6 < n)%nat -> (q + 2 < n)%nat -> (r < n)%nat -> (s < n)%nat -> group st g p am b G N -> point st q Q -> has st r (ofZ rv) -> has st s (ofZ sv) ->
  on_curve p a b Q -> odd_order p a Q -> bytes m -> Z.gcd sv N = 1 ->
  let z := be_val (firstn (8 * used (ofZ N)) m) in
  exists w, 0 <= w < N /\ (sv * w) mod N = 1 /\
  wp (ecdsa_verify_m n g q r s m) e st (fun rc s' => rc = (if xcoord (ecdsa_point p a G Q N z rv w) mod N =? Z.abs rv then 0 else -1) /\ untouched n st s').
Proof. exact verify_eq. Qed.
Print Assumptions C78_verify_partial.
Theorem C78_verify_no_partial : forall p a b am G N e st n g q r s Q rv sv m, a_rep am a -> ecdsa_domain p a b G N -> (forall k, grant e k = true) -> calm n st ->
  (g + 6 < n)%nat -> (q + 2 < n)%nat -> (r < n)%nat -> (s < n)%nat -> group st g p am b G N -> point st q Q -> has st r (ofZ rv) -> has st s (ofZ sv) ->
  on_curve p a b Q -> odd_order p a Q -> bytes m -> Z.gcd sv N <> 1 ->
  wp (ecdsa_verify_m n g q r s m) e st (fun rc s' => rc = -1 /\ untouched n st s').
Proof. exact verify_no. Qed.
Print Assumptions C78_verify_no_partial.
Theorem C78_keygen_partial : forall p a b am G N e s n g d q v bin, a_rep am a -> ecdsa_domain p a b G N -> (forall k, grant e k = true) -> calm n s ->
  (g + 6 < n)%nat -> (d < n)%nat -> (q + 2 < n)%nat -> group s g p am b G N -> has s d v -> neg v = false -> usable_pt s q ->
  ~ (g <= d < g + 7)%nat -> ~ (q <= d < q + 3)%nat -> same_or_apart q (g + 3) -> draw_for N bin ->
  (used (ofZ N) <= len s d)%nat \/ B ^ (Z.of_nat (used (ofZ N)) - 1) <= be_val bin ->
  exists dz, 0 <= dz < N /\ rand_range false (len s d) (ofZ N) bin = Ok (ofZ dz) /\
  wp (ecdsa_keygen_m n g d q bin) e s (fun rc s' => rc = 0 /\ has s' d (ofZ dz) /\ point s' q (ec_mul p a dz G) /\
    calm n s' /\ (forall x, (x < n)%nat -> x <> d -> ~ (q <= x < q + 3)%nat -> mem s' x = mem s x)).
Proof. exact keygen_mem. Qed.
Print Assumptions C78_keygen_partial.
(** d = 7, k = 5: the signature of C61's example *)
Example C78_ex : ecdsa_domain 23 1 19 (Some (2, 11)) 19 /\ draw_for 19 [8] /\ rand_range false 8 (ofZ 19) [8] = Ok (ofZ 5) /\ (used (ofZ 19) <= 8)%nat /\
  has (sample 20 9 7 1 1) 10 (ofZ 7) /\ usable (sample 20 9 7 1 1) 11 /\ usable (sample 20 9 7 1 1) 12 /\
  point (sample 20 9 7 1 1) 7 (ec_mul 23 1 7 (Some (2, 11))) /\ odd_order 23 1 (ec_mul 23 1 7 (Some (2, 11))) /\ Z.gcd 12 19 = 1.
Proof.
  split; [exact ex_domain|]. split; [split; [repeat constructor; lia|reflexivity]|]. split; [vm_compute; reflexivity|]. split; [vm_compute; lia|].
  assert (H : forall i v, nth_error [23; 1; 19; 2; 11; 1; 19; 20; 9; 1; 7; 1; 1] i = Some v -> 0 < v < B -> has (sample 20 9 7 1 1) i (ofZ v)) by (intros; apply sample_has; auto).
  assert (L : forall v, 0 < v < 30 -> 0 < v < B) by (intros v Hv; change B with (2 ^ 64); lia).
  split; [apply H; [reflexivity|apply L; lia]|]. split; [eexists; apply H; [reflexivity|apply L; lia]|]. split; [eexists; apply H; [reflexivity|apply L; lia]|].
  split; [replace (ec_mul 23 1 7 (Some (2, 11))) with (Some (20, 9)) by (vm_compute; reflexivity); repeat split; (apply H; [reflexivity|apply L; lia])|].
  split; [|reflexivity]. apply (mult_odd_order 23 1 19); [exact ex_good|cbn; lia|exact (proj1 C59_ex)|lia].
Qed.

(** The memory for the tables of multiples refused: verification accepts r = 1,
    s = 1 for the key (4, 15) and the message 1, 2, though the equation fails. *)
Theorem C78_forged_refuted : exists e st, group st 0 23 (ofZ 1) 19 (Some (2, 11)) 19 /\ point st 7 (Some (4, 15)) /\ has st 11 (ofZ 1) /\ has st 12 (ofZ 1) /\ calm 13 st /\
  wp (ecdsa_verify_m 13 0 7 11 12 [1; 2]) e st (fun rc _ => rc = 0) /\
  (1 * 1) mod 19 = 1 /\ xcoord (ecdsa_point 23 1 (Some (2, 11)) (Some (4, 15)) 19 (be_val [1; 2]) 1 1) mod 19 <> 1.
Proof.
  exists (but [31; 35]%nat), (sample 4 15 2 1 1). split; [apply sample_group|].
  split; [repeat split; (apply sample_has; [reflexivity|split; [lia|reflexivity]])|]. split; [apply sample_has; [reflexivity|split; [lia|reflexivity]]|]. split; [apply sample_has; [reflexivity|split; [lia|reflexivity]]|].
  split; [apply sample_calm|]. split; [vm_compute; reflexivity|]. split; [reflexivity|]. vm_compute. discriminate.
Qed.
Print Assumptions C78_forged_refuted.
(** A refused allocation while the local points are initialised: the clean-up
    of verification reads a coordinate that was never initialised. *)
Theorem C78_verify_refuted : forall e s n g q r sg m, (forall i, (i < 4)%nat -> grant e (tick s + i) = true) -> grant e (tick s + 4) = false -> mem s (n + 5) = None ->
  ecdsa_verify_m n g q r sg m e s = UB.
Proof. exact verify_wild. Qed.
Print Assumptions C78_verify_refuted.
(** A refused allocation in signature: success is reported, with the signature
    object unchanged. *)
Theorem C78_sign_refuted : forall e s n g d r sg bin m, calm n s ->
  grant e (tick s) = true -> grant e (S (tick s)) = true -> grant e (S (S (tick s))) = false ->
  wp (ecdsa_sign_m n g d r sg bin m) e s (fun rc s' => rc = 0 /\ untouched n s s').
Proof. exact sign_lost. Qed.
Print Assumptions C78_sign_refuted.
(** The same for the two steps of key agreement. *)
Theorem C78_ecdh_refuted : forall e s n g d q z P, calm n s -> (g + 5 < n)%nat -> (q + 2 < n)%nat -> point s (g + 3) P -> P <> None ->
  grant e (tick s) = true -> grant e (S (tick s)) = true -> grant e (S (S (tick s))) = true -> grant e (S (S (S (tick s)))) = false ->
  wp (ecdh_agree_m n g d q) e s (fun rc s' => rc = 0 /\ untouched n s s') /\
  (forall Q, point s q Q -> Q <> None -> wp (ecdh_final_m n g d q z) e s (fun rc s' => rc = 0 /\ untouched n s s')).
Proof.
  intros e s n g d q z P C Lg Lq HP NP G0 G1 G2 G3. split; [exact (mul_lost e s n q (g + 3) d g P C ltac:(lia) HP NP G0 G1 G2 G3)|].
  intros Q HQ NQ. exact (mul_lost e s n z q d g Q C Lq HQ NQ G0 G1 G2 G3).
Qed.
Print Assumptions C78_ecdh_refuted.
(** A refused allocation in the initialisation of a key agreement: success is
    reported, and the point [q] is not initialised. *)
Theorem C78_ecdh_init_refuted : exists e s, wp (ecdh_init_m 0 7 8 11) e s (fun rc s' => rc = 0 /\ starved e s s' /\ mem s' 8 = None /\ mem s' 9 = None /\ mem s' 10 = None).
Proof.
  exists (first 8), (mkst (fun _ => None) 0). vm_compute. split; [reflexivity|]. split; [exists 8%nat; split; [lia|reflexivity]|]. auto.
Qed.
Print Assumptions C78_ecdh_init_refuted.
Example C78_refuted_ex : (forall i, (i < 4)%nat -> grant (but [4%nat]) i = true) /\ grant (but [4%nat]) 4 = false /\ mem (sample 4 15 5 7 12) (13 + 5) = None /\
  grant (but [2%nat]) 0 = true /\ grant (but [2%nat]) 1 = true /\ grant (but [2%nat]) 2 = false.
Proof. split; [intros [|[|[|[|i]]]] H; try reflexivity; lia|]. repeat (split; [reflexivity|]). reflexivity. Qed.
