(** Property C74: exponentiation, greatest common divisor, least common
    multiple, square root and inversion of objects in memory, with results that
    may be operands, and allocations that may be refused.  The vocabulary is in
    MemSpec.v and MemAlgSpec.v. *)
From Verif Require Import Base MpiModel MpiSpec MemModel MemSpec MemAlgModel MemAlgSpec MemAlgSafe MemGcd MemSqrt MemInv MemInv2.

(** Exponentiation, with or without modulus, provided that its first allocation
    is granted: on failure nothing has changed. *)
Theorem C74_exp_partial : forall e s n r b ex mo vb ve m, calm n s -> (r < n)%nat -> (b < n)%nat -> (ex < n)%nat ->
  usable s r -> has s b (ofZ vb) -> has s ex (ofZ ve) -> with_modulus n s mo m -> 0 <= ve -> m <> Some 1 \/ 0 < ve ->
  grant e (tick s) = true ->
  wp (mod_exp_m n r b ex mo) e s (after e n r true (ofZ (power vb ve m)) s).
Proof. exact power_safe. Qed.
Print Assumptions C74_exp_partial.

Theorem C74_exp_neg : forall e s n r b ex mo ve, has s ex (ofZ ve) -> ve < 0 ->
  (forall x, mo = Some x -> usable s x) ->
  wp (mod_exp_m n r b ex mo) e s (fun rc s' => rc = -1 /\ s' = s).
Proof. exact power_neg. Qed.
Print Assumptions C74_exp_neg.

(** Greatest common divisor of non-negative numbers, the second zero only if
    the first is. *)
Theorem C74_gcd : forall e s n r x y vx vy, calm n s -> (r < n)%nat -> (x < n)%nat -> (y < n)%nat ->
  usable s r -> has s x (ofZ vx) -> has s y (ofZ vy) -> 0 <= vx -> 0 <= vy -> (vy = 0 -> vx = 0) ->
  wp (gcd_m n r x y) e s (after e n r false (ofZ (Z.gcd vx vy)) s).
Proof. exact gcd_safe. Qed.
Print Assumptions C74_gcd.

Theorem C74_lcm : forall e s n r x y vx vy, calm n s -> (r < n)%nat -> (x < n)%nat -> (y < n)%nat ->
  usable s r -> has s x (ofZ vx) -> has s y (ofZ vy) -> 0 <= vx -> 0 < vy ->
  wp (lcm_m n r x y) e s (after e n r (0 <? vx) (ofZ (Z.lcm vx vy)) s).
Proof. exact lcm_safe. Qed.
Print Assumptions C74_lcm.

Theorem C74_sqrt : forall e s n r a va, calm n s -> (r < n)%nat -> (a < n)%nat -> usable s r -> has s a (ofZ va) -> 0 <= va ->
  wp (sqrt_m n r a) e s (after e n r true (ofZ (Z.sqrt va)) s).
Proof. exact sqrt_safe. Qed.
Print Assumptions C74_sqrt.

Theorem C74_sqrt_neg : forall e s n r a va, has s a (ofZ va) -> va < 0 ->
  wp (sqrt_m n r a) e s (fun rc s' => rc = -1 /\ s' = s).
Proof. exact sqrt_neg_m. Qed.
Print Assumptions C74_sqrt_neg.

(** Inversion, while no allocation is refused and the result is not the
    modulus. *)
Theorem C74_inv_partial : forall e s n r a m va vm, (forall k, grant e k = true) -> calm n s ->
  (r < n)%nat -> (a < n)%nat -> (m < n)%nat -> usable s r -> has s a (ofZ va) -> has s m (ofZ vm) -> 0 < vm -> r <> m ->
  wp (inv_m n r a m) e s (inverse_outcome n r va vm s).
Proof. exact inv_safe. Qed.
Print Assumptions C74_inv_partial.

(** If memory runs out once the five temporaries exist, inversion never ends:
    every bound on the rounds is reached. *)
Theorem C74_inv_endless_refuted : forall e s n r a m x y, calm n s -> (a < n)%nat -> (m < n)%nat ->
  has s a (ofZ x) -> has s m (ofZ y) -> 0 < x < 2 ^ 512 -> 0 < y < 2 ^ 512 -> x <> y ->
  (forall k, (tick s <= k < tick s + 5)%nat -> grant e k = true) -> (forall k, (tick s + 5 <= k)%nat -> grant e k = false) ->
  forall fuel, inv_fuel_m fuel n r a m e s = Fuel.
Proof. exact inv_stuck. Qed.
Print Assumptions C74_inv_endless_refuted.

(** A refused allocation inside exponentiation's first call: an object that was
    never initialised is used. *)
Theorem C74_exp_refuted : exists s, calm 3 s /\ has s 0 (ofZ 3) /\ has s 1 (ofZ 7) /\ usable s 2 /\
  mod_exp_m 3 2 0 1 None nothing s = UB.
Proof.
  exists (three (mkobj false 1 [3]) (mkobj false 1 [7]) void).
  split; [intros [|[|[|x]]] H; try lia; left; reflexivity|].
  split; [eexists; split; [reflexivity|split; [cbn; lia|reflexivity]]|]. split; [eexists; split; [reflexivity|split; [cbn; lia|reflexivity]]|].
  split; [exists (mkmpi false []); eexists; split; [reflexivity|split; [cbn; lia|reflexivity]]|]. vm_compute. reflexivity.
Qed.
Print Assumptions C74_exp_refuted.

(** The greatest common divisor fails, but the destination has lost its value. *)
Theorem C74_gcd_unchanged_refuted : exists e s v, calm 3 s /\ has s 0 (ofZ (2 ^ 512 - 2)) /\ has s 1 (ofZ (2 ^ 512 - 2)) /\ has s 2 (ofZ 99) /\
  wp (gcd_m 3 2 0 1) e s (fun rc s' => rc = -1 /\ has s' 2 v /\ mval v = 2 ^ 511 - 1).
Proof.
  exists (first 2), (three (mkobj false 8 [B - 2; B - 1; B - 1; B - 1; B - 1; B - 1; B - 1; B - 1]) (mkobj false 8 [B - 2; B - 1; B - 1; B - 1; B - 1; B - 1; B - 1; B - 1]) (mkobj false 1 [99])).
  exists (mkmpi false [B - 1; B - 1; B - 1; B - 1; B - 1; B - 1; B - 1; B / 2 - 1]).
  split; [intros [|[|[|x]]] H; try lia; left; reflexivity|].
  split; [eexists; split; [reflexivity|split; [cbn; lia|vm_compute; reflexivity]]|]. split; [eexists; split; [reflexivity|split; [cbn; lia|vm_compute; reflexivity]]|].
  split; [eexists; split; [reflexivity|split; [cbn; lia|reflexivity]]|].
  vm_compute. split; [reflexivity|]. split; [|reflexivity]. eexists. split; [reflexivity|]. split; [cbn; lia|reflexivity].
Qed.
Print Assumptions C74_gcd_unchanged_refuted.

(** Operands of different sign: the quotient is formed without a remainder. *)
Theorem C74_lcm_refuted : exists s, calm 3 s /\ has s 0 (ofZ (-3)) /\ has s 1 (ofZ 7) /\ usable s 2 /\ lcm_m 3 2 0 1 plenty s = UB.
Proof.
  exists (three (mkobj true 1 [3]) (mkobj false 1 [7]) void).
  split; [intros [|[|[|x]]] H; try lia; left; reflexivity|].
  split; [eexists; split; [reflexivity|split; [cbn; lia|reflexivity]]|]. split; [eexists; split; [reflexivity|split; [cbn; lia|reflexivity]]|].
  split; [exists (mkmpi false []); eexists; split; [reflexivity|split; [cbn; lia|reflexivity]]|]. vm_compute. reflexivity.
Qed.
Print Assumptions C74_lcm_refuted.

(** One refused allocation: return code 0 with 11 as the inverse of 5 modulo
    12. *)
Theorem C74_inv_lost_refuted : exists e s, calm 3 s /\ has s 0 (ofZ 5) /\ has s 1 (ofZ 12) /\ usable s 2 /\
  wp (inv_m 3 2 0 1) e s (fun rc s' => rc = 0 /\ starved e s s' /\ has s' 2 (ofZ 11) /\ (5 * 11) mod 12 <> 1).
Proof.
  exists (all_but 16), (three (mkobj false 1 [5]) (mkobj false 1 [12]) void).
  split; [intros [|[|[|x]]] H; try lia; left; reflexivity|].
  split; [eexists; split; [reflexivity|split; [cbn; lia|reflexivity]]|]. split; [eexists; split; [reflexivity|split; [cbn; lia|reflexivity]]|].
  split; [exists (mkmpi false []); eexists; split; [reflexivity|split; [cbn; lia|reflexivity]]|].
  vm_compute. split; [reflexivity|]. split; [exists 16%nat; split; [lia|reflexivity]|]. split; [|discriminate].
  eexists. split; [reflexivity|]. split; [cbn; lia|reflexivity].
Qed.
Print Assumptions C74_inv_lost_refuted.

(** The inverse written over the modulus: return code 0 with 0 as the inverse
    of 3 modulo 7. *)
Theorem C74_inv_alias_refuted : exists s, calm 3 s /\ has s 0 (ofZ 3) /\ has s 1 (ofZ 7) /\
  wp (inv_m 3 1 0 1) plenty s (fun rc s' => rc = 0 /\ has s' 1 (ofZ 0)).
Proof.
  exists (three (mkobj false 1 [3]) (mkobj false 1 [7]) void).
  split; [intros [|[|[|x]]] H; try lia; left; reflexivity|].
  split; [eexists; split; [reflexivity|split; [cbn; lia|reflexivity]]|]. split; [eexists; split; [reflexivity|split; [cbn; lia|reflexivity]]|].
  vm_compute. split; [reflexivity|]. eexists. split; [reflexivity|]. split; [cbn; lia|reflexivity].
Qed.
Print Assumptions C74_inv_alias_refuted.

(** The hypotheses are met, with results written over operands, with memory and
    without. *)
Example C74_ex : let s := three (mkobj false 1 [6; 0; 0; 0; 0; 0; 0; 0]) (mkobj false 1 [15]) (mkobj true 1 [7; 0; 0]) in
  calm 3 s /\ has s 0 (ofZ 6) /\ has s 1 (ofZ 15) /\ has s 2 (ofZ (-7)) /\ with_modulus 3 s (Some 1%nat) (Some 15) /\
  wp (mod_exp_m 3 0 2 0 (Some 1%nat)) plenty s (fun rc s' => rc = 0 /\ has s' 0 (ofZ 4)) /\
  wp (gcd_m 3 0 0 1) plenty s (fun rc s' => rc = 0 /\ has s' 0 (ofZ 3)) /\
  wp (gcd_m 3 0 0 1) nothing s (fun rc s' => rc = -1 /\ mem s' 0%nat = mem s 0%nat) /\
  wp (lcm_m 3 1 0 1) plenty s (fun rc s' => rc = 0 /\ has s' 1 (ofZ 30)) /\
  wp (sqrt_m 3 1 1) plenty s (fun rc s' => rc = 0 /\ has s' 1 (ofZ 3)) /\
  wp (inv_m 3 2 2 1) plenty s (fun rc s' => rc = 0 /\ has s' 2 (ofZ 2)) /\
  wp (inv_m 3 2 0 1) plenty s (fun rc s' => rc = -1 /\ has s' 2 (ofZ (-7))).
Proof.
  cbv zeta. split; [intros [|[|[|x]]] H; try lia; left; reflexivity|].
  split; [eexists; split; [reflexivity|split; [cbn; lia|reflexivity]]|]. split; [eexists; split; [reflexivity|split; [cbn; lia|reflexivity]]|].
  split; [eexists; split; [reflexivity|split; [cbn; lia|reflexivity]]|].
  split; [split; [lia|]; split; [eexists; split; [reflexivity|split; [cbn; lia|reflexivity]]|lia]|].
  split; [vm_compute; split; auto; eexists; (split; [reflexivity|]; split; [cbn; lia|reflexivity])|].
  split; [vm_compute; split; auto; eexists; (split; [reflexivity|]; split; [cbn; lia|reflexivity])|].
  split; [vm_compute; auto|].
  split; [vm_compute; split; auto; eexists; (split; [reflexivity|]; split; [cbn; lia|reflexivity])|].
  split; [vm_compute; split; auto; eexists; (split; [reflexivity|]; split; [cbn; lia|reflexivity])|].
  split; [vm_compute; split; auto; eexists; (split; [reflexivity|]; split; [cbn; lia|reflexivity])|].
  vm_compute; split; auto; eexists; (split; [reflexivity|]; split; [cbn; lia|reflexivity]).
Qed.

Example C74_endless_ex : let s := three (mkobj false 1 [5]) (mkobj false 1 [12]) void in
  forall fuel, inv_fuel_m fuel 3 2 0 1 (first 5) s = Fuel.
Proof.
  intros s fuel. apply (C74_inv_endless_refuted (first 5) s 3 2 0 1 5 12).
  - intros [|[|[|x]]] H; try lia; left; reflexivity.
  - lia.
  - lia.
  - eexists; split; [reflexivity|split; [cbn; lia|reflexivity]].
  - eexists; split; [reflexivity|split; [cbn; lia|reflexivity]].
  - split; reflexivity.
  - split; reflexivity.
  - lia.
  - intros k H. apply Nat.ltb_lt. cbn [tick s three] in H. lia.
  - intros k H. apply Nat.ltb_ge. cbn [tick s three] in H. lia.
Qed.
