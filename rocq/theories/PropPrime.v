(** Property C67: how often the primality test accepts a composite number. *)
From Coq Require Import Znumtheory.
From Verif Require Import Base BytesSpec MpiModel MpiSpec MpiCanon MpiIOModel MpiTextSpec MrBound MrDraws.

(** At most a quarter of the bases make one round accept a composite number. *)
Theorem C67_bases : forall n l, 1 < n -> Z.odd n = true -> ~ (3 | n) -> ~ prime n -> NoDup l ->
  (forall a, In a l -> 0 <= a < n /\ miller_rabin n a) -> 4 * Z.of_nat (length l) <= n - 1.
Proof. exact mr_bound. Qed.
Print Assumptions C67_bases.

(** One round, counted over the byte strings the generator can supply: no more
    than 129 in 256 of them. *)
Theorem C67_round : forall n ds, 1 < n -> Z.odd n = true -> ~ (3 | n) -> ~ prime n -> NoDup ds ->
  (forall d, In d ds -> draw_for n d /\ passes_mr (ofZ n) d = Ok true) ->
  256 * Z.of_nat (length ds) <= 129 * 256 ^ ((Z.log2 n + 8) / 8).
Proof. exact round_count. Qed.
Print Assumptions C67_round.

(** The whole test, counted over the five strings it asks for. *)
Theorem C67_test : forall n ts, 1 < n -> Z.odd n = true -> ~ prime n -> NoDup ts ->
  (forall t, In t ts -> exists d1 d2 d3 d4 d5, t = [d1; d2; d3; d4; d5] /\ Forall (draw_for n) t /\
     is_prime (ofZ n) d1 d2 d3 d4 d5 = Ok true) ->
  256 ^ 5 * Z.of_nat (length ts) <= 129 ^ 5 * (256 ^ ((Z.log2 n + 8) / 8)) ^ 5.
Proof. exact test_count. Qed.
Print Assumptions C67_test.

(** 2047 = 23 * 89 passes a round with base 2046 or 1024. *)
Example C67_ex_round : passes_mr (ofZ 2047) [7; 254] = Ok true /\ passes_mr (ofZ 2047) [4; 0] = Ok true /\
  passes_mr (ofZ 2047) [4; 7] = Ok false /\ draw_for 2047 [7; 254] /\ 2047 = 23 * 89 /\ 2047 mod 3 = 1.
Proof.
  split; [vm_compute; reflexivity|]. split; [vm_compute; reflexivity|]. split; [vm_compute; reflexivity|].
  split; [|split; reflexivity]. split; [repeat constructor; discriminate|reflexivity].
Qed.
(** A composite number the whole test accepts: 1026169 with the base 1 chosen
    five times. *)
Example C67_ex_test : let d := [7; 168; 122] in Forall (draw_for 1026169) [d; d; d; d; d] /\ 1026169 = 1013 * 1013 /\
  is_prime (ofZ 1026169) d d d d d = Ok true.
Proof.
  split; [|split; [reflexivity|vm_compute; reflexivity]].
  repeat (apply Forall_cons; [split; [repeat constructor; discriminate|reflexivity]|]). constructor.
Qed.
