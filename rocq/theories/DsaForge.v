(** Proofs for PropDsaForge.v: which DSA signatures are accepted. *)
From Coq Require Import Znumtheory.
From Verif Require Import Base Lists BytesSpec Bytes MpiModel MpiSpec MpiCanon MpiMulModel MpiDivModel MpiDiv MpiAlgModel MpiAlg MpiAlg2 MpiIOModel MpiIO MpiTextSpec MpiRand PkModel PkSpec Pk NumTh EcForgeSpec DsaForgeSpec.
Ltac Zify.zify_post_hook ::= idtac.

Lemma inv_unique q s w w' : 1 < q -> 0 <= w < q -> 0 <= w' < q -> (s * w) mod q = 1 -> (s * w') mod q = 1 -> w = w'.
Proof.
  intros Q Hw Hw' W W'. rewrite <- (Z.mod_small w q Hw), <- (Z.mod_small w' q Hw').
  transitivity ((s * w' * w) mod q); [rewrite <- (Z.mul_mod_idemp_l (s * w') w), W', Z.mul_1_l by lia; reflexivity|].
  transitivity ((s * w * w') mod q); [|rewrite <- (Z.mul_mod_idemp_l (s * w) w'), W, Z.mul_1_l by lia; reflexivity].
  f_equal. ring.
Qed.
Lemma dver_form p q g y pvt m r s w : 1 < p -> 1 < q -> bytes m -> 0 <= w < q -> (s * w) mod q = 1 ->
  dver p q g y pvt m r s = Ok (if dsa_v p q g y (msg_num q m) r w =? Z.abs r then 0 else -1).
Proof.
  intros P Q B Hw W. assert (G : Z.gcd s q = 1).
  { apply Zgcd_1_rel_prime. apply bezout_rel_prime. apply Bezout_intro with w (- (s * w / q)). pose proof (Z.div_mod (s * w) q ltac:(lia)) as D. rewrite W in D. clear - D. nia. }
  destruct (dsa_verify_form p q g pvt y m r s P Q B G) as (w' & Hw' & W' & V). unfold dver. rewrite V. rewrite (inv_unique q s w' w Q Hw' Hw W' W). reflexivity.
Qed.
Lemma inv_exists p q g y pvt m r s : 1 < p -> 1 < q -> bytes m -> (exists w, 0 <= w < q /\ (s * w) mod q = 1) \/ dver p q g y pvt m r s = Ok 0 /\ Z.gcd s q <> 1.
Proof.
  intros P Q B. destruct (Z.eq_dec (Z.gcd s q) 1) as [G|G].
  - left. destruct (dsa_verify_form p q g pvt y m r s P Q B G) as (w & Hw & W & _). exists w. split; assumption.
  - right. split; [|exact G]. apply dsa_verify_err; [lia|exact G].
Qed.
Lemma v_cong p q g y z z' r r' w w' : (z * w) mod q = (z' * w') mod q -> (r * w) mod q = (r' * w') mod q -> dsa_v p q g y z r w = dsa_v p q g y z' r' w'.
Proof. intros A B. unfold dsa_v. rewrite A, B. reflexivity. Qed.

Lemma d_same p q g y pvt m m' r s : 1 < p -> 1 < q -> bytes m -> bytes m' -> msg_num q m mod q = msg_num q m' mod q -> dver p q g y pvt m r s = dver p q g y pvt m' r s.
Proof.
  intros P Q B B' E. destruct (Z.eq_dec (Z.gcd s q) 1) as [G|G].
  - destruct (inv_exists p q g y pvt m r s P Q B) as [(w & Hw & W)|[_ N]]; [|contradiction].
    rewrite !(dver_form p q g y pvt _ r s w) by assumption. do 2 f_equal. rewrite (v_cong p q g y (msg_num q m) (msg_num q m') r r w w); [reflexivity| |reflexivity]. apply mod_mul; [lia|exact E|reflexivity].
  - unfold dver. rewrite !dsa_verify_err by (try lia; exact G). reflexivity.
Qed.
Lemma d_neg p q g y pvt m m' r s : 1 < p -> 1 < q -> bytes m -> bytes m' -> (msg_num q m + msg_num q m') mod q = 0 -> dver p q g y pvt m' (- r) (- s) = dver p q g y pvt m r s.
Proof.
  intros P Q B B' E. destruct (Z.eq_dec (Z.gcd s q) 1) as [G|G].
  - destruct (inv_exists p q g y pvt m r s P Q B) as [(w & Hw & W)|[_ N]]; [|contradiction].
    assert (M : forall a, (a * ((- w) mod q)) mod q = (- (a * w)) mod q) by (intros a; rewrite Z.mul_mod_idemp_r by lia; f_equal; ring).
    rewrite (dver_form p q g y pvt m' (- r) (- s) ((- w) mod q)); [|lia|lia|exact B'|apply Z.mod_pos_bound; lia|].
    + rewrite (dver_form p q g y pvt m r s w) by assumption. rewrite Z.abs_opp. rewrite (v_cong p q g y (msg_num q m') (msg_num q m) (- r) r ((- w) mod q) w); [reflexivity| |].
      * rewrite M. replace (- (msg_num q m' * w)) with (msg_num q m * w + - (msg_num q m + msg_num q m') * w) by ring.
        rewrite <- Z.add_mod_idemp_r by lia. replace ((- (msg_num q m + msg_num q m') * w) mod q) with 0; [rewrite Z.add_0_r; reflexivity|].
        symmetry. apply Z.mod_divide; [lia|]. apply Z.divide_mul_l. apply Z.divide_opp_r. apply Z.mod_divide; [lia|exact E].
      * rewrite M. f_equal. ring.
    + rewrite M. rewrite <- W. f_equal. ring.
  - unfold dver. rewrite !dsa_verify_err by (try rewrite Z.gcd_opp_l; try lia; exact G). reflexivity.
Qed.
(** the two powers together *)
Lemma v_pair p q g y z r w a b : 1 < p -> 1 < q -> g ^ q mod p = 1 -> y ^ q mod p = 1 -> 0 <= a -> 0 <= b -> (z * w) mod q = a mod q -> (r * w) mod q = b mod q ->
  dsa_v p q g y z r w = ((g ^ a * y ^ b) mod p) mod q.
Proof.
  intros P Q G Y A B EA EB. unfold dsa_v. f_equal. pose proof (Z.mod_pos_bound (z * w) q ltac:(lia)) as B1. pose proof (Z.mod_pos_bound (r * w) q ltac:(lia)) as B2.
  apply mod_mul; [lia| |].
  - refine (pow_period g q p _ a _ _ G _ _ _); [clear - P; lia|clear - Q; lia|exact (proj1 B1)|exact A|]. rewrite Z.mod_mod by lia. exact EA.
  - refine (pow_period y q p _ b _ _ Y _ _ _); [clear - P; lia|clear - Q; lia|exact (proj1 B2)|exact B|]. rewrite Z.mod_mod by lia. exact EB.
Qed.
Lemma d_exist p q g y pvt m a b s : 1 < p -> 1 < q -> g ^ q mod p = 1 -> y ^ q mod p = 1 -> bytes m -> 0 <= a -> 0 <= b ->
  let r := ((g ^ a * y ^ b) mod p) mod q in (s * b) mod q = r -> msg_num q m mod q = (a * s) mod q -> dver p q g y pvt m r s = Ok 0.
Proof.
  intros P Q G Y B Ha Hb r Hs Hm. destruct (inv_exists p q g y pvt m r s P Q B) as [(w & Hw & W)|[V _]]; [|exact V].
  rewrite (dver_form p q g y pvt m r s w) by assumption. assert (R : 0 <= r < q) by (apply Z.mod_pos_bound; lia).
  rewrite (v_pair p q g y (msg_num q m) r w a b); try assumption.
  - fold r. rewrite (Z.abs_eq r) by lia. rewrite Z.eqb_refl. reflexivity.
  - transitivity ((a * s * w) mod q); [apply mod_mul; [lia|exact Hm|reflexivity]|]. rewrite <- Z.mul_assoc, <- Z.mul_mod_idemp_r, W, Z.mul_1_r by lia. reflexivity.
  - transitivity ((s * b * w) mod q); [apply mod_mul; [lia|rewrite Hs; apply Z.mod_small; exact R|reflexivity]|].
    replace (s * b * w) with (b * (s * w)) by ring. rewrite <- Z.mul_mod_idemp_r, W, Z.mul_1_r by lia. reflexivity.
Qed.
Lemma d_key p q g pvt m k s : 1 < p -> 1 < q -> g ^ q mod p = 1 -> bytes m -> 0 <= k -> (s * k) mod q = msg_num q m mod q -> dver p q g 1 pvt m ((g ^ k mod p) mod q) s = Ok 0.
Proof.
  intros P Q G B Hk E. set (r := (g ^ k mod p) mod q). destruct (inv_exists p q g 1 pvt m r s P Q B) as [(w & Hw & W)|[V _]]; [|exact V].
  rewrite (dver_form p q g 1 pvt m r s w) by assumption. assert (R : 0 <= r < q) by (apply Z.mod_pos_bound; lia).
  pose proof (Z.mod_pos_bound (r * w) q ltac:(lia)) as B2.
  rewrite (v_pair p q g 1 (msg_num q m) r w k ((r * w) mod q)).
  - rewrite Z.pow_1_l, Z.mul_1_r by lia. fold r. rewrite (Z.abs_eq r) by lia. rewrite Z.eqb_refl. reflexivity.
  - exact P. - exact Q. - exact G. - rewrite Z.pow_1_l by lia. apply Z.mod_1_l. lia. - exact Hk. - lia.
  - transitivity ((s * k * w) mod q); [apply mod_mul; [lia|symmetry; exact E|reflexivity]|]. replace (s * k * w) with (k * (s * w)) by ring. rewrite <- Z.mul_mod_idemp_r, W, Z.mul_1_r by lia. reflexivity.
  - rewrite Z.mod_mod by lia. reflexivity.
Qed.
(** a key pair *)
Lemma v_pow p q g x z r w k : 1 < p -> 1 < q -> g ^ q mod p = 1 -> 0 <= x -> 0 <= k -> k mod q = (w * (z + r * x)) mod q -> dsa_v p q g (g ^ x mod p) z r w = (g ^ k mod p) mod q.
Proof.
  intros P Q G Hx Hk E. unfold dsa_v. f_equal. pose proof (Z.mod_pos_bound (z * w) q ltac:(lia)) as B1. pose proof (Z.mod_pos_bound (r * w) q ltac:(lia)) as B2.
  set (u1 := (z * w) mod q) in *. set (u2 := (r * w) mod q) in *.
  rewrite (mod_mul (g ^ u1) ((g ^ x mod p) ^ u2) (g ^ u1) (g ^ (x * u2)) p); [|lia|reflexivity|rewrite pow_mod, <- Z.pow_mul_r by lia; reflexivity].
  assert (N : 0 <= x * u2) by (apply Z.mul_nonneg_nonneg; [exact Hx|apply B2]). rewrite <- Z.pow_add_r by (try exact N; apply B1).
  refine (pow_period g q p (u1 + x * u2) k _ _ G _ _ _); [clear - P; lia|clear - Q; lia|exact (Z.add_nonneg_nonneg _ _ (proj1 B1) N)|exact Hk|].
  rewrite E. transitivity ((z * w + x * (r * w)) mod q); [|f_equal; ring].
  apply mod_add; [lia|unfold u1; apply mod_modl; lia|]. apply mod_mul; [lia|reflexivity|unfold u2; apply mod_modl; lia].
Qed.
Lemma d_exact p q g x pvt m r s : dsa_domain p q g -> 0 <= x -> bytes m ->
  dver p q g (g ^ x mod p) pvt m r s = Ok 0 <->
  s mod q = 0 \/ exists k, 0 <= k < q /\ (s * k) mod q = (msg_num q m + r * x) mod q /\ (g ^ k mod p) mod q = Z.abs r.
Proof.
  intros (Pp & Pq & _ & G) Hx B. pose proof (prime_ge_2 p Pp). pose proof (prime_ge_2 q Pq). assert (P : 1 < p) by lia. assert (Q : 1 < q) by lia.
  destruct (inv_exists p q g (g ^ x mod p) pvt m r s P Q B) as [(w & Hw & W)|[V N]].
  - rewrite (dver_form p q g (g ^ x mod p) pvt m r s w) by assumption. set (z := msg_num q m).
    assert (S0 : s mod q <> 0).
    { intros Z0. rewrite <- Z.mul_mod_idemp_l, Z0, Z.mul_0_l, Z.mod_0_l in W by lia. discriminate. }
    set (k0 := (w * (z + r * x)) mod q). assert (K0 : 0 <= k0 < q) by (apply Z.mod_pos_bound; lia).
    rewrite (v_pow p q g x z r w k0) by (try assumption; try lia; unfold k0; apply Z.mod_mod; lia).
    split.
    + intros E. right. exists k0. split; [exact K0|]. split.
      * unfold k0. rewrite Z.mul_mod_idemp_r by lia. replace (s * (w * (z + r * x))) with (s * w * (z + r * x)) by ring. rewrite <- Z.mul_mod_idemp_l, W, Z.mul_1_l by lia. reflexivity.
      * destruct (Z.eqb_spec ((g ^ k0 mod p) mod q) (Z.abs r)) as [E'|E']; [exact E'|discriminate].
    + intros [Z0|(k & Hk & Ek & Er)]; [contradiction|]. assert (k0 = k).
      { unfold k0. rewrite <- (Z.mod_small k q Hk). transitivity ((w * (s * k)) mod q); [apply mod_mul; [lia|reflexivity|symmetry; exact Ek]|].
        replace (w * (s * k)) with (s * w * k) by ring. rewrite <- Z.mul_mod_idemp_l, W, Z.mul_1_l by lia. reflexivity. }
      subst k. rewrite Er, Z.eqb_refl. reflexivity.
  - rewrite V. split; [|reflexivity]. intros _. left. destruct (Z.eq_dec (s mod q) 0) as [E|E]; [exact E|]. exfalso. apply N. rewrite Z.gcd_comm. apply Zgcd_1_rel_prime.
    apply prime_rel_prime; [exact Pq|]. intros D. apply E. apply Z.mod_divide; [lia|exact D].
Qed.
