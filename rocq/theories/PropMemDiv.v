(** Property C73: division and reduction of objects in memory, with quotient
    and remainder that may be NULL or operands, and allocations that may be
    refused.  The vocabulary is in MemSpec.v. *)
From Verif Require Import Base MpiModel MpiSpec MemModel MemSpec MemDivModel MemDivSafe MemDivAll.

(** Non-negative dividend: any aliasing, either destination may be missing.  On
    failure nothing has changed unless the dividend is below the divisor. *)
Theorem C73_div : forall e s n rq rr a b x y, calm n s -> (a < n)%nat -> (b < n)%nat ->
  has s a (ofZ x) -> has s b (ofZ y) -> 0 <= x -> 0 < y ->
  (forall q, rq = Some q -> (q < n)%nat /\ usable s q /\ rr <> Some q) ->
  (forall r, rr = Some r -> (r < n)%nat /\ usable s r) ->
  wp (div_m n rq rr a b) e s (after2 e n rq rr (y <=? x) (ofZ (x / y)) (ofZ (x mod y)) s).
Proof. exact div_safe. Qed.
Print Assumptions C73_div.

(** Negative dividend: the remainder must be asked for, the divisor must not be
    a destination, and the quotient needs room for two digits if the dividend
    is the smaller one. *)
Theorem C73_div_neg_partial : forall e s n rq r a b x y, calm n s -> (a < n)%nat -> (b < n)%nat -> (r < n)%nat ->
  has s a (ofZ x) -> has s b (ofZ y) -> usable s r -> x < 0 -> 0 < y -> x mod y <> 0 -> r <> b ->
  (forall q, rq = Some q -> (q < n)%nat /\ usable s q /\ q <> r /\ q <> b /\
     (- x < y -> exists o, mem s q = Some o /\ (2 <= length (o_da o))%nat)) ->
  wp (div_m n rq (Some r) a b) e s (after2 e n rq (Some r) (y <=? - x) (ofZ (x / y)) (ofZ (x mod y)) s).
Proof. exact div_safe_neg. Qed.
Print Assumptions C73_div_neg_partial.

(** Every pair of signs: what the call leaves, under the restrictions that the
    refutations below show to be needed.  The quotient is the floor for a positive
    divisor unless the dividend is a negative multiple of it. *)
Theorem C73_div_signs_partial : forall e s n rq rr a b x y, calm n s -> (a < n)%nat -> (b < n)%nat -> has s a (ofZ x) -> has s b (ofZ y) -> y <> 0 ->
  (forall q, rq = Some q -> (q < n)%nat /\ usable s q /\ rr <> Some q) -> (forall r, rr = Some r -> (r < n)%nat /\ usable s r) ->
  let opp := xorb (x <? 0) (y <? 0) in let A := Z.abs x in let D := Z.abs y in
  (opp = true -> (exists r, rr = Some r /\ r <> b) /\ rq <> Some b /\ (A < D -> forall q o, rq = Some q -> mem s q = Some o -> (2 <= length (o_da o))%nat)) ->
  wp (div_m n rq rr a b) e s (after2 e n rq rr (D <=? A)
    (ofZ (if opp then if A mod D =? 0 then A / D else - (A / D) - 1 else A / D))
    (ofZ (if opp then if A mod D =? 0 then 0 else D - A mod D else if A <? D then x else A mod D)) s).
Proof. exact div_all. Qed.
Print Assumptions C73_div_signs_partial.

Theorem C73_mod : forall e s n r a b x y, calm n s -> (a < n)%nat -> (b < n)%nat -> (r < n)%nat ->
  has s a (ofZ x) -> has s b (ofZ y) -> usable s r -> 0 < y -> 0 <= x \/ r <> b ->
  wp (mod_m n r a b) e s (after e n r (y <=? Z.abs x) (ofZ (x mod y)) s).
Proof. exact mod_safe. Qed.
Print Assumptions C73_mod.

Theorem C73_zero : forall e s n rq rr a b x, has s a (ofZ x) -> has s b (ofZ 0) ->
  wp (div_m n rq rr a b) e s (fun rc s' => rc = -1 /\ s' = s).
Proof. exact div_by_zero. Qed.
Print Assumptions C73_zero.

Theorem C73_memory : forall e n rq rr strong v w s rc s', (forall k, grant e k = true) ->
  after2 e n rq rr strong v w s rc s' -> rc = 0 /\ holds s' rq v /\ holds s' rr w.
Proof. exact after2_fed. Qed.
Print Assumptions C73_memory.

(** Objects 0 and 1 are the operands, 2 and 3 possible destinations. *)
Definition four (x y q r : obj) : st :=
  mkst (fun i => match i with 0%nat => Some x | 1%nat => Some y | 2%nat => Some q | 3%nat => Some r | _ => None end) 0.

(** No remainder asked for and operands of different sign: NULL is read. *)
Theorem C73_null_refuted : exists s, calm 4 s /\ has s 0 (ofZ (-7)) /\ has s 1 (ofZ 2) /\ usable s 2 /\
  div_m 4 (Some 2%nat) None 0 1 plenty s = UB.
Proof.
  exists (four (mkobj true 1 [7]) (mkobj false 1 [2]) void void).
  split; [intros [|[|[|[|x]]]] H; try lia; left; reflexivity|].
  split; [eexists; split; [reflexivity|split; [cbn; lia|reflexivity]]|]. split; [eexists; split; [reflexivity|split; [cbn; lia|reflexivity]]|].
  split; [exists (mkmpi false []); eexists; split; [reflexivity|split; [cbn; lia|reflexivity]]|]. vm_compute. reflexivity.
Qed.
Print Assumptions C73_null_refuted.

(** Reducing a negative number into the modulus gives 0, with return code 0. *)
Theorem C73_alias_refuted : exists s, calm 4 s /\ has s 0 (ofZ (-7)) /\ has s 1 (ofZ 4) /\
  wp (mod_m 4 1 0 1) plenty s (fun rc s' => rc = 0 /\ has s' 1 (ofZ 0) /\ (-7) mod 4 = 1).
Proof.
  exists (four (mkobj true 1 [7]) (mkobj false 1 [4]) void void).
  split; [intros [|[|[|[|x]]]] H; try lia; left; reflexivity|].
  split; [eexists; split; [reflexivity|split; [cbn; lia|reflexivity]]|]. split; [eexists; split; [reflexivity|split; [cbn; lia|reflexivity]]|].
  vm_compute. split; [reflexivity|]. split; [|reflexivity]. eexists. split; [reflexivity|]. split; [cbn; lia|reflexivity].
Qed.
Print Assumptions C73_alias_refuted.

(** A refused allocation is forgotten: return code 0 with quotient 0 instead
    of -1. *)
Theorem C73_lost_refuted : exists e s, calm 4 s /\ has s 0 (ofZ (-1)) /\ has s 1 (ofZ 2) /\ usable s 2 /\ usable s 3 /\
  wp (div_m 4 (Some 2%nat) (Some 3%nat) 0 1) e s (fun rc s' => rc = 0 /\ starved e s s' /\ (exists v, has s' 2 v /\ mval v = 0) /\ (-1) / 2 = -1).
Proof.
  exists nothing, (four (mkobj true 1 [1]) (mkobj false 1 [2]) void (mkobj false 0 [9; 9; 9])).
  split; [intros [|[|[|[|x]]]] H; try lia; left; reflexivity|].
  split; [eexists; split; [reflexivity|split; [cbn; lia|reflexivity]]|]. split; [eexists; split; [reflexivity|split; [cbn; lia|reflexivity]]|].
  split; [exists (mkmpi false []); eexists; split; [reflexivity|split; [cbn; lia|reflexivity]]|].
  split; [exists (mkmpi false []); eexists; split; [reflexivity|split; [cbn; lia|reflexivity]]|].
  vm_compute. split; [reflexivity|]. split; [exists 0%nat; split; [lia|reflexivity]|]. split; [|reflexivity].
  eexists. split; [eexists; split; [reflexivity|split; [cbn; lia|reflexivity]]|]. reflexivity.
Qed.
Print Assumptions C73_lost_refuted.

(** Failure with a dividend below the divisor has already cleared the
    quotient. *)
Theorem C73_unchanged_refuted : exists e s, calm 4 s /\ has s 0 (ofZ 3) /\ has s 1 (ofZ 5) /\ has s 2 (ofZ 7) /\ usable s 3 /\
  wp (div_m 4 (Some 2%nat) (Some 3%nat) 0 1) e s (fun rc s' => rc = -1 /\ has s' 2 (ofZ 0)).
Proof.
  exists nothing, (four (mkobj false 1 [3]) (mkobj false 1 [5]) (mkobj false 1 [7]) void).
  split; [intros [|[|[|[|x]]]] H; try lia; left; reflexivity|].
  split; [eexists; split; [reflexivity|split; [cbn; lia|reflexivity]]|]. split; [eexists; split; [reflexivity|split; [cbn; lia|reflexivity]]|].
  split; [eexists; split; [reflexivity|split; [cbn; lia|reflexivity]]|].
  split; [exists (mkmpi false []); eexists; split; [reflexivity|split; [cbn; lia|reflexivity]]|].
  vm_compute. split; [reflexivity|]. eexists. split; [reflexivity|]. split; [cbn; lia|reflexivity].
Qed.
Print Assumptions C73_unchanged_refuted.

(** The hypotheses are met with both destinations operands; with and without
    memory. *)
Example C73_ex : let s := four (mkobj false 2 [5; 9; 77]) (mkobj false 1 [4]) (mkobj true 1 [7; 0; 0]) void in
  calm 4 s /\ has s 0 (ofZ (9 * B + 5)) /\ has s 1 (ofZ 4) /\ has s 2 (ofZ (-7)) /\ usable s 3 /\
  wp (div_m 4 (Some 0%nat) (Some 1%nat) 0 1) plenty s (fun rc s' => rc = 0 /\ has s' 0 (ofZ ((9 * B + 5) / 4)) /\ has s' 1 (ofZ 1)) /\
  wp (div_m 4 (Some 0%nat) (Some 1%nat) 0 1) nothing s (fun rc s' => rc = -1 /\ mem s' 0%nat = mem s 0%nat /\ mem s' 1%nat = mem s 1%nat) /\
  wp (div_m 4 (Some 3%nat) (Some 2%nat) 2 1) plenty s (fun rc s' => rc = 0 /\ has s' 3 (ofZ (-2)) /\ has s' 2 (ofZ 1)).
Proof.
  cbv zeta. split; [intros [|[|[|[|x]]]] H; try lia; left; reflexivity|].
  split; [eexists; split; [reflexivity|split; [cbn; lia|reflexivity]]|]. split; [eexists; split; [reflexivity|split; [cbn; lia|reflexivity]]|].
  split; [eexists; split; [reflexivity|split; [cbn; lia|reflexivity]]|].
  split; [exists (mkmpi false []); eexists; split; [reflexivity|split; [cbn; lia|reflexivity]]|].
  split; [vm_compute; split; auto; split; eexists; (split; [reflexivity|]; split; [cbn; lia|reflexivity])|].
  split; [vm_compute; auto|].
  vm_compute; split; auto; split; eexists; (split; [reflexivity|]; split; [cbn; lia|reflexivity]).
Qed.
(** 7 divided by -2 *)
Example C73_div_signs_ex : let s := four (mkobj false 1 [7]) (mkobj true 1 [2]) (mkobj false 1 [9; 0]) void in
  calm 4 s /\ has s 0 (ofZ 7) /\ has s 1 (ofZ (-2)) /\ usable s 2 /\ usable s 3 /\
  wp (div_m 4 (Some 2%nat) (Some 3%nat) 0 1) plenty s (fun rc s' => rc = 0 /\
    option_map (fun o => mval (view o)) (mem s' 2%nat) = Some (-4) /\ option_map (fun o => mval (view o)) (mem s' 3%nat) = Some 1).
Proof.
  cbv zeta. split; [intros [|[|[|[|x]]]] H; try lia; left; reflexivity|]. split; [eexists; split; [reflexivity|split; [cbn; lia|reflexivity]]|].
  split; [eexists; split; [reflexivity|split; [cbn; lia|reflexivity]]|]. split; [exists (ofZ 9); eexists; split; [reflexivity|split; [cbn; lia|reflexivity]]|].
  split; [exists mzero; eexists; split; [reflexivity|split; [cbn; lia|reflexivity]]|]. vm_compute. auto.
Qed.
