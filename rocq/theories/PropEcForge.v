(** C91: which ECDSA signatures are accepted.  [public_point]: a point whose order
    divides n; [msg_num]: the number that stands for a message. *)
From Coq Require Import Znumtheory.
From Verif Require Import Base BytesSpec MpiModel MpiAlgModel MpiIOModel MpiSpec MpiTextSpec EcpModel EcSpec EcpSpec EcZ EcPk EcForgeSpec EcForge PropEcp.

(** For the key pair d, d G, exactly the solutions of the signing equation are accepted;
    [k] is the nonce.  Neither r nor s is restricted to a range. *)
Theorem C91_exact : forall p a b am G n d m r s, a_rep am a -> ecdsa_domain p a b G n -> 0 <= d -> bytes m ->
  ecdsa_verify (ekey p a am b G n d) (ofZ r) (ofZ s) m = Ok 0 <->
  Z.gcd s n = 1 /\ exists k, 0 <= k < n /\ (s * k) mod n = (msg_num n m + r * d) mod n /\ xcoord (ec_mul p a k G) mod n = Z.abs r.
Proof. exact v_exact. Qed.
Print Assumptions C91_exact.

(** s counts modulo n, and with either sign. *)
Theorem C91_range_refuted : forall p a b am G n pvt Q, a_rep am a -> ecdsa_domain p a b G n -> public_point p a b n Q -> forall m r s k, bytes m ->
  ecdsa_verify {| sa_grp := egrp p am b G n; sa_d := pvt; sa_q := ept Q |} (ofZ r) (ofZ (s + k * n)) m =
  ecdsa_verify {| sa_grp := egrp p am b G n; sa_d := pvt; sa_q := ept Q |} (ofZ r) (ofZ s) m.
Proof. exact v_shift. Qed.
Print Assumptions C91_range_refuted.
Theorem C91_opposite_refuted : forall p a b am G n pvt Q, a_rep am a -> ecdsa_domain p a b G n -> public_point p a b n Q -> forall m r s, bytes m ->
  ecdsa_verify {| sa_grp := egrp p am b G n; sa_d := pvt; sa_q := ept Q |} (ofZ r) (ofZ (- s)) m =
  ecdsa_verify {| sa_grp := egrp p am b G n; sa_d := pvt; sa_q := ept Q |} (ofZ r) (ofZ s) m.
Proof. exact v_opp. Qed.
Print Assumptions C91_opposite_refuted.
(** The sign of r is ignored in the comparison only: a signature (r, s) of one message
    gives the signature (-r, s) of another, whose number is the opposite modulo n. *)
Theorem C91_negative_refuted : forall p a b am G n pvt Q, a_rep am a -> ecdsa_domain p a b G n -> public_point p a b n Q -> forall m m' r s, bytes m -> bytes m' ->
  (msg_num n m + msg_num n m') mod n = 0 ->
  ecdsa_verify {| sa_grp := egrp p am b G n; sa_d := pvt; sa_q := ept Q |} (ofZ (- r)) (ofZ s) m' =
  ecdsa_verify {| sa_grp := egrp p am b G n; sa_d := pvt; sa_q := ept Q |} (ofZ r) (ofZ s) m.
Proof. exact v_neg. Qed.
Print Assumptions C91_negative_refuted.
(** Messages with the same number modulo n share their signatures. *)
Theorem C91_message_refuted : forall p a b am G n pvt Q, a_rep am a -> ecdsa_domain p a b G n -> public_point p a b n Q -> forall m m' r s, bytes m -> bytes m' ->
  msg_num n m mod n = msg_num n m' mod n ->
  ecdsa_verify {| sa_grp := egrp p am b G n; sa_d := pvt; sa_q := ept Q |} (ofZ r) (ofZ s) m =
  ecdsa_verify {| sa_grp := egrp p am b G n; sa_d := pvt; sa_q := ept Q |} (ofZ r) (ofZ s) m'.
Proof. exact v_same. Qed.
Print Assumptions C91_message_refuted.
(** The input is not hashed: from the public key alone anyone computes numbers of
    messages together with signatures; with u = 0, of the empty message. *)
Theorem C91_exist_refuted : forall p a b am G n pvt Q, a_rep am a -> ecdsa_domain p a b G n -> public_point p a b n Q ->
  forall m u t ti, bytes m -> 0 <= u < n -> 0 < t < n -> (t * ti) mod n = 1 ->
  let x := xcoord (ec_add p a (ec_mul p a u G) (ec_mul p a t Q)) mod n in
  x <> 0 -> msg_num n m mod n = (u * (x * ti)) mod n ->
  ecdsa_verify {| sa_grp := egrp p am b G n; sa_d := pvt; sa_q := ept Q |} (ofZ x) (ofZ (x * ti)) m = Ok 0.
Proof. exact v_exist. Qed.
Print Assumptions C91_exist_refuted.
(** The point at infinity is accepted as a public key, and then anyone signs. *)
Theorem C91_key_refuted : forall p a b am G n pvt m k ki, a_rep am a -> ecdsa_domain p a b G n -> bytes m -> 0 < k < n -> (k * ki) mod n = 1 -> msg_num n m mod n <> 0 ->
  ecdsa_verify {| sa_grp := egrp p am b G n; sa_d := pvt; sa_q := ept None |} (ofZ (xcoord (ec_mul p a k G) mod n)) (ofZ (msg_num n m * ki)) m = Ok 0.
Proof. exact v_zero. Qed.
Print Assumptions C91_key_refuted.

(** the curve and key of C61_ex: the signature (7, 12) of [1; 2], its other forms, (-7, 12)
    for the opposite number 8 *)
Example C91_ex : let V := fun m r s => ecdsa_verify (ekey 23 1 (ofZ 1) 19 (Some (2, 11)) 19 7) (ofZ r) (ofZ s) m in
  V [1; 2] 7 12 = Ok 0 /\ V [1; 2] 7 31 = Ok 0 /\ V [1; 2] 7 (-12) = Ok 0 /\ V [8] (-7) 12 = Ok 0.
Proof.
  assert (HQ : public_point 23 1 19 19 (ec_mul 23 1 7 (Some (2, 11)))) by (split; vm_compute; repeat split; discriminate).
  assert (M1 : bytes [1; 2]) by (repeat constructor; unfold byte; lia). assert (M2 : bytes [8]) by (repeat constructor; unfold byte; lia).
  destruct C61_ex as (_ & _ & E & _). intro V. split; [exact E|].
  split; [exact (eq_trans (C91_range_refuted 23 1 19 (ofZ 1) _ 19 (ofZ 7) _ (or_introl eq_refl) ex_domain HQ [1; 2] 7 12 1 M1) E)|].
  split; [exact (eq_trans (C91_opposite_refuted 23 1 19 (ofZ 1) _ 19 (ofZ 7) _ (or_introl eq_refl) ex_domain HQ [1; 2] 7 12 M1) E)|].
  exact (eq_trans (C91_negative_refuted 23 1 19 (ofZ 1) _ 19 (ofZ 7) _ (or_introl eq_refl) ex_domain HQ [1; 2] [8] 7 12 M1 M2 eq_refl) E).
Qed.
(** a signature of the empty message, from the public key *)
Example C91_exist_ex : exists x, ecdsa_verify (ekey 23 1 (ofZ 1) 19 (Some (2, 11)) 19 7) (ofZ x) (ofZ (x * 1)) [] = Ok 0.
Proof.
  assert (HQ : public_point 23 1 19 19 (ec_mul 23 1 7 (Some (2, 11)))) by (split; vm_compute; repeat split; discriminate).
  eexists. refine (C91_exist_refuted 23 1 19 (ofZ 1) _ 19 (ofZ 7) _ (or_introl eq_refl) ex_domain HQ [] 0 1 1 (Forall_nil _) _ _ eq_refl _ eq_refl); [lia|lia|vm_compute; discriminate].
Qed.
