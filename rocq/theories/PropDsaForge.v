(** C95: which DSA signatures are accepted.  [dver]: the result of verification;
    [msg_num]: the number that stands for a message; [dsa_domain]: valid parameters. *)
From Coq Require Import Znumtheory.
From Verif Require Import Base BytesSpec MpiModel MpiSpec PkModel PkSpec EcForgeSpec DsaForgeSpec DsaForge PropPk.

(** For the key pair x, g^x, exactly the solutions of the signing equation are
    accepted, [k] being the nonce, and besides them everything with s = 0 modulo q. *)
Theorem C95_exact : forall p q g x pvt m r s, dsa_domain p q g -> 0 <= x -> bytes m ->
  dver p q g (g ^ x mod p) pvt m r s = Ok 0 <->
  s mod q = 0 \/ exists k, 0 <= k < q /\ (s * k) mod q = (msg_num q m + r * x) mod q /\ (g ^ k mod p) mod q = Z.abs r.
Proof. exact d_exact. Qed.
Print Assumptions C95_exact.
Example C95_exact_ex : dsa_domain 3329 13 (3 ^ 256 mod 3329) /\ bytes [1; 2; 3].
Proof. split; [apply C55_ex|]. repeat constructor; unfold byte; lia. Qed.

(** The sign of r is ignored in the comparison only: a signature (r, s) of one message
    gives (-r, -s) for another, whose number is the opposite modulo q. *)
Theorem C95_negative_refuted : forall p q g y pvt m m' r s, 1 < p -> 1 < q -> bytes m -> bytes m' -> (msg_num q m + msg_num q m') mod q = 0 ->
  dver p q g y pvt m' (- r) (- s) = dver p q g y pvt m r s.
Proof. exact d_neg. Qed.
Print Assumptions C95_negative_refuted.
(** Messages with the same number modulo q share their signatures. *)
Theorem C95_message_refuted : forall p q g y pvt m m' r s, 1 < p -> 1 < q -> bytes m -> bytes m' -> msg_num q m mod q = msg_num q m' mod q ->
  dver p q g y pvt m r s = dver p q g y pvt m' r s.
Proof. exact d_same. Qed.
Print Assumptions C95_message_refuted.
Example C95_message_ex : msg_num 13 [1] mod 13 = msg_num 13 [14] mod 13 /\ (msg_num 13 [1] + msg_num 13 [12]) mod 13 = 0.
Proof. split; vm_compute; reflexivity. Qed.
(** The input is not hashed: from the public key alone anyone chooses a and b and
    computes a signed number. *)
Theorem C95_exist_refuted : forall p q g y pvt m a b s, 1 < p -> 1 < q -> g ^ q mod p = 1 -> y ^ q mod p = 1 -> bytes m -> 0 <= a -> 0 <= b ->
  let r := ((g ^ a * y ^ b) mod p) mod q in (s * b) mod q = r -> msg_num q m mod q = (a * s) mod q -> dver p q g y pvt m r s = Ok 0.
Proof. exact d_exist. Qed.
Print Assumptions C95_exist_refuted.
Example C95_exist_ex : let g := 3 ^ 256 mod 3329 in let r := ((g ^ 2 * g ^ 1) mod 3329) mod 13 in
  0 < r /\ (r * 1) mod 13 = r /\ msg_num 13 [7] mod 13 = (2 * r) mod 13.
Proof. vm_compute. split; [reflexivity|split; reflexivity]. Qed.
(** The public key 1 is used like any other and lets anyone sign everything. *)
Theorem C95_key_refuted : forall p q g pvt m k s, 1 < p -> 1 < q -> g ^ q mod p = 1 -> bytes m -> 0 <= k -> (s * k) mod q = msg_num q m mod q ->
  dver p q g 1 pvt m ((g ^ k mod p) mod q) s = Ok 0.
Proof. exact d_key. Qed.
Print Assumptions C95_key_refuted.
Example C95_key_ex : msg_num 13 [5] mod 13 = (3 * 6) mod 13 /\ (6 * 3) mod 13 = msg_num 13 [5] mod 13.
Proof. split; vm_compute; reflexivity. Qed.
