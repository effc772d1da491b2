(** Properties C71 and C72: arithmetic on objects in memory, with destinations
    that may be operands, buffers with arbitrary unused contents, and
    allocations that may be refused.  The vocabulary is in MemSpec.v. *)
From Verif Require Import Base MpiModel MpiSpec MemModel MemSpec MemMulModel MemLeaf MemShr MemMulSafe.

(** *** C71: copy, absolute value, addition, subtraction, shifts *)
Theorem C71_copy : forall e s n r a x, calm n s -> (r < n)%nat -> usable s r -> has s a (ofZ x) ->
  wp (copy r a) e s (after e n r true (ofZ x) s).
Proof. exact copy_safe. Qed.
Print Assumptions C71_copy.

Theorem C71_abs : forall e s n r a x, calm n s -> (r < n)%nat -> usable s r -> has s a (ofZ x) ->
  wp (abs r a) e s (after e n r true (ofZ (Z.abs x)) s).
Proof. exact abs_safe. Qed.
Print Assumptions C71_abs.

Theorem C71_add : forall e s n r a b x y, calm n s -> (r < n)%nat -> usable s r -> has s a (ofZ x) -> has s b (ofZ y) ->
  wp (add_m r a b) e s (after e n r true (ofZ (x + y)) s).
Proof. exact add_safe. Qed.
Print Assumptions C71_add.

Theorem C71_sub : forall e s n r a b x y, calm n s -> (r < n)%nat -> usable s r -> has s a (ofZ x) -> has s b (ofZ y) ->
  wp (sub_m r a b) e s (after e n r true (ofZ (x - y)) s).
Proof. exact sub_safe. Qed.
Print Assumptions C71_sub.

Theorem C71_shr : forall e s n r a k x, calm n s -> (r < n)%nat -> usable s r -> has s a (ofZ x) -> 0 <= k -> 0 <= x ->
  wp (shr_m r a k) e s (after e n r true (ofZ (x / 2 ^ k)) s).
Proof. exact shr_safe. Qed.
Print Assumptions C71_shr.

(** Negative numbers are shifted towards zero; when nothing is left the zero may
    carry a minus sign, which C07 shows to compare wrongly. *)
Theorem C71_shr_neg : forall e s n r a k x, calm n s -> (r < n)%nat -> usable s r -> has s a (ofZ x) -> 0 <= k -> 0 <= x \/ 2 ^ k <= - x ->
  wp (shr_m r a k) e s (after e n r true (ofZ (Z.quot x (2 ^ k))) s).
Proof. exact shr_any. Qed.
Print Assumptions C71_shr_neg.
Theorem C71_shr_zero_partial : forall e s n r a k x, calm n s -> (r < n)%nat -> usable s r -> has s a (ofZ x) -> 0 <= k -> - x < 2 ^ k -> x < 0 ->
  exists b, wp (shr_m r a k) e s (after e n r true (mkmpi b []) s).
Proof. exact shr_zero. Qed.
Print Assumptions C71_shr_zero_partial.
Theorem C71_shr_zero_refuted : exists e s x, calm 2 s /\ usable s 0 /\ has s 0 (ofZ x) /\ - x < 2 ^ 1 /\ x < 0 /\
  wp (shr_m 0 0 1) e s (fun rc s' => rc = 0 /\ has s' 0 (mkmpi true [])).
Proof.
  exists plenty, (two (mkobj true 1 [1]) (mkobj false 1 [2])), (-1).
  split; [intros [|[|x]] H; [lia|lia|left; reflexivity]|]. split; [exists (mkmpi true [1]); eexists; split; [reflexivity|split; [cbn; lia|reflexivity]]|].
  split; [eexists; split; [reflexivity|split; [cbn; lia|reflexivity]]|]. split; [reflexivity|]. split; [reflexivity|].
  vm_compute. split; [reflexivity|]. eexists. split; [reflexivity|split; [cbn; lia|reflexivity]].
Qed.
Print Assumptions C71_shr_zero_refuted.

(** In place a right shift cannot fail. *)
Theorem C71_shr_in_place : forall e s n a k x, calm n s -> (a < n)%nat -> has s a (ofZ x) -> 0 <= k -> 0 <= x ->
  wp (shr_m a a k) e s (fun rc s' => rc = 0 /\ after e n a true (ofZ (x / 2 ^ k)) s rc s').
Proof. exact shr_here. Qed.
Print Assumptions C71_shr_in_place.

(** A left shift leaves the destination untouched on failure only when it is
    done in place. *)
Theorem C71_shl_partial : forall e s n r a k x, calm n s -> (r < n)%nat -> usable s r -> has s a (ofZ x) -> 0 <= k ->
  wp (shl_m r a k) e s (after e n r (Nat.eqb a r) (ofZ (x * 2 ^ k)) s).
Proof. exact shl_safe. Qed.
Print Assumptions C71_shl_partial.

Theorem C71_shl_refuted : exists e s x, calm 2 s /\ usable s 0 /\ has s 1 (ofZ x) /\
  wp (shl_m 0 1 1) e s (fun rc s' => rc = -1 /\ mem s' 0%nat <> mem s 0%nat).
Proof.
  exists nothing, (two (mkobj false 1 [7]) (mkobj false 1 [2 ^ 63])), (2 ^ 63).
  split; [intros [|[|x]] H; [lia|lia|left; reflexivity]|]. split; [exists (mkmpi false [7]); eexists; split; [reflexivity|split; [cbn; lia|reflexivity]]|].
  split; [eexists; split; [reflexivity|split; [cbn; lia|reflexivity]]|]. vm_compute. split; [reflexivity|discriminate].
Qed.
Print Assumptions C71_shl_refuted.

(** The hypotheses are met with the destination an operand and rubbish in the
    unused part of the buffer; then with and without memory. *)
Example C71_ex : let s := two (mkobj false 2 [B - 1; B - 1; 99]) (mkobj false 1 [1]) in
  calm 2 s /\ usable s 0 /\ has s 0 (ofZ (B * B - 1)) /\ has s 1 (ofZ 1) /\
  wp (add_m 0 0 1) nothing s (fun rc s' => rc = 0 /\ mem s' 0%nat = Some (mkobj false 3 [0; 0; 1])) /\
  wp (add_m 1 0 1) nothing s (fun rc s' => rc = -1 /\ mem s' 1%nat = mem s 1%nat) /\
  wp (add_m 1 0 1) plenty s (fun rc s' => rc = 0 /\ has s' 1 (ofZ (B * B))).
Proof.
  cbv zeta. split; [intros [|[|x]] H; [lia|lia|left; reflexivity]|].
  split; [exists (ofZ (B * B - 1)); eexists; split; [reflexivity|split; [cbn; lia|reflexivity]]|]. split; [eexists; split; [reflexivity|split; [cbn; lia|reflexivity]]|].
  split; [eexists; split; [reflexivity|split; [cbn; lia|reflexivity]]|]. split; [vm_compute; auto|]. split; [vm_compute; auto|].
  vm_compute. split; auto. eexists. split; [reflexivity|]. split; [cbn; lia|reflexivity].
Qed.

(** When no allocation is refused every call succeeds. *)
Theorem C71_memory : forall e n r strong v s rc s', (forall k, grant e k = true) ->
  after e n r strong v s rc s' -> rc = 0 /\ has s' r v.
Proof. exact after_fed. Qed.
Print Assumptions C71_memory.

(** *** C72: multiplication and squaring.  On failure the destination is a valid
    number; it is the old one if an operand has at most 300 digits. *)
Theorem C72_mul : forall e s n r a b x y, calm n s -> (r < n)%nat -> (a < n)%nat -> (b < n)%nat -> usable s r ->
  has s a (ofZ x) -> has s b (ofZ y) -> wp (mul_m n r a b) e s (after e n r false (ofZ (x * y)) s).
Proof. exact mul_safe. Qed.
Print Assumptions C72_mul.

Theorem C72_mul_unchanged : forall e s n r a b x y, calm n s -> (r < n)%nat -> (a < n)%nat -> (b < n)%nat -> usable s r ->
  has s a (ofZ x) -> has s b (ofZ y) -> Z.abs x < 2 ^ (64 * 300) \/ Z.abs y < 2 ^ (64 * 300) ->
  wp (mul_m n r a b) e s (after e n r true (ofZ (x * y)) s).
Proof. exact mul_safe_small. Qed.
Print Assumptions C72_mul_unchanged.

Theorem C72_mul_dig : forall e s n r a x d w, calm n s -> (r < n)%nat -> (a < n)%nat -> has s r w -> has s a (ofZ x) ->
  0 <= d < B -> d <> 0 \/ r = a \/ neg w = false -> wp (mul_dig_m n r a d) e s (after e n r true (ofZ (x * d)) s).
Proof. exact mul_dig_safe. Qed.
Print Assumptions C72_mul_dig.

(** Squaring is right for a destination that is the operand or holds no
    negative number. *)
Theorem C72_sqr_partial : forall e s n r a x w, calm n s -> (r < n)%nat -> (a < n)%nat -> has s r w -> has s a (ofZ x) ->
  r = a \/ neg w = false -> wp (sqr_m n r a) e s (after e n r true (ofZ (x * x)) s).
Proof. exact sqr_safe. Qed.
Print Assumptions C72_sqr_partial.

Theorem C72_sqr_refuted : exists e s x, calm 2 s /\ usable s 0 /\ has s 1 (ofZ x) /\
  wp (sqr_m 2 0 1) e s (fun rc s' => rc = 0 /\ has s' 0 (ofZ (- (x * x))) /\ ~ has s' 0 (ofZ (x * x))).
Proof.
  exists nothing, (two (mkobj true 1 [7; 0; 0]) (mkobj false 1 [3])), 3.
  split; [intros [|[|x]] H; [lia|lia|left; reflexivity]|]. split; [exists (mkmpi true [7]); eexists; split; [reflexivity|split; [cbn; lia|reflexivity]]|].
  split; [eexists; split; [reflexivity|split; [cbn; lia|reflexivity]]|]. vm_compute.
  split; [reflexivity|]. split; [eexists; split; [reflexivity|split; [cbn; lia|reflexivity]]|]. intros (o & M & _ & V). injection M as <-. discriminate V.
Qed.
Print Assumptions C72_sqr_refuted.

(** Times the digit 0 with a negative number in the destination: minus zero. *)
Theorem C72_mul_dig_refuted : exists e s x, calm 2 s /\ usable s 0 /\ has s 1 (ofZ x) /\
  wp (mul_dig_m 2 0 1 0) e s (fun rc s' => rc = 0 /\ has s' 0 (mkmpi true []) /\ ~ has s' 0 (ofZ (x * 0))).
Proof.
  exists nothing, (two (mkobj true 1 [7; 0; 0]) (mkobj false 1 [3])), 3.
  split; [intros [|[|x]] H; [lia|lia|left; reflexivity]|]. split; [exists (mkmpi true [7]); eexists; split; [reflexivity|split; [cbn; lia|reflexivity]]|].
  split; [eexists; split; [reflexivity|split; [cbn; lia|reflexivity]]|]. vm_compute.
  split; [reflexivity|]. split; [eexists; split; [reflexivity|split; [cbn; lia|reflexivity]]|]. intros (o & M & _ & V). injection M as <-. discriminate V.
Qed.
Print Assumptions C72_mul_dig_refuted.

Example C72_ex : let s := two (mkobj true 1 [B - 1; 5]) (mkobj false 1 [B - 1]) in
  calm 2 s /\ usable s 0 /\ has s 0 (ofZ (1 - B)) /\ has s 1 (ofZ (B - 1)) /\
  wp (mul_m 2 0 0 1) plenty s (fun rc s' => rc = 0 /\ has s' 0 (ofZ (- ((B - 1) * (B - 1))))) /\
  wp (mul_m 2 0 0 1) nothing s (fun rc s' => rc = -1 /\ mem s' 0%nat = mem s 0%nat) /\
  wp (sqr_m 2 1 1) plenty s (fun rc s' => rc = 0 /\ has s' 1 (ofZ ((B - 1) * (B - 1)))).
Proof.
  cbv zeta. split; [intros [|[|x]] H; [lia|lia|left; reflexivity]|].
  split; [exists (ofZ (1 - B)); eexists; split; [reflexivity|split; [cbn; lia|reflexivity]]|]. split; [eexists; split; [reflexivity|split; [cbn; lia|reflexivity]]|].
  split; [eexists; split; [reflexivity|split; [cbn; lia|reflexivity]]|]. split; [vm_compute; split; auto; eexists; split; [reflexivity|]; split; [cbn; lia|reflexivity]|].
  split; [vm_compute; auto|].
  vm_compute. split; auto. eexists. split; [reflexivity|]. split; [cbn; lia|reflexivity].
Qed.
