(** Proofs for PropEcForge.v: which ECDSA signatures are accepted. *)
From Coq Require Import Znumtheory.
From Verif Require Import Base Lists BytesSpec Bytes MpiModel MpiSpec MpiCanon MpiMulModel MpiDivModel MpiDiv MpiAlgModel MpiAlg MpiAlg2 MpiIOModel MpiIO MpiTextSpec MpiRand Pk NumTh EcpModel EcSpec EcZ EcpSpec Ecp EcpMul EcPk EcForgeSpec.
Ltac Zify.zify_post_hook ::= idtac.

Lemma mod_mul_l x y c k : 0 < k -> x mod k = y mod k -> (x * c) mod k = (y * c) mod k.
Proof. intros K E. apply mod_mul; [exact K|exact E|reflexivity]. Qed.

Section Forge.
  Variables (p a b : Z) (am : mpi) (G : ecpoint) (n : Z) (pvt : mpi) (Q : ecpoint).
  Hypothesis HA : a_rep am a.
  Hypothesis HD : ecdsa_domain p a b G n.
  Hypothesis HQ : public_point p a b n Q.
  Local Notation V m r s := (ecdsa_verify {| sa_grp := egrp p am b G n; sa_d := pvt; sa_q := ept Q |} (ofZ r) (ofZ s) m).
  Local Notation pt z r w := (ecdsa_point p a G Q n z r w).

  Lemma n_gt : 2 < n. Proof. exact (proj1 (proj2 (proj2 (proj2 (proj2 HD))))). Qed.
  Lemma n_prime : prime n. Proof. exact (proj1 (proj2 (proj2 (proj2 HD)))). Qed.
  Lemma good : good_curve p a b. Proof. exact (proj1 HD). Qed.
  Lemma G_on : on_curve p a b G. Proof. exact (proj1 (proj2 HD)). Qed.
  Lemma G_n : ec_mul p a n G = None. Proof. exact (proj2 (proj2 (proj2 (proj2 (proj2 HD))))). Qed.
  Lemma Q_odd : odd_order p a Q.
  Proof.
    exists n. pose proof n_gt as N2. split; [lia|]. split; [|exact (proj2 HQ)].
    destruct (Z.odd n) eqn:E; [reflexivity|]. exfalso. assert (Ev : Z.even n = true) by (rewrite <- Z.negb_odd, E; reflexivity). apply Z.even_spec in Ev as [k K].
    destruct (prime_divisors n n_prime 2 ltac:(exists k; lia)) as [?|[?|[?|?]]]; lia.
  Qed.
  Lemma w_unique s w w' : 0 <= w < n -> 0 <= w' < n -> (s * w) mod n = 1 -> (s * w') mod n = 1 -> w = w'.
  Proof.
    pose proof n_gt as N2. intros Hw Hw' E E'. rewrite <- (Z.mod_small w n), <- (Z.mod_small w' n) by assumption.
    transitivity ((w * (s * w')) mod n). { replace w with (w * 1) at 1 by ring. apply mod_mul; [lia|reflexivity|rewrite E', Z.mod_1_l by lia; reflexivity]. }
    replace (w * (s * w')) with (w' * (s * w)) by ring. replace w' with (w' * 1) at 2 by ring. apply mod_mul; [lia|reflexivity|rewrite E, Z.mod_1_l by lia; reflexivity].
  Qed.
  Lemma v_form m r s w : bytes m -> 0 <= w < n -> (s * w) mod n = 1 -> V m r s = if xcoord (pt (msg_num n m) r w) mod n =? Z.abs r then Ok 0 else Err (-1).
  Proof.
    pose proof n_gt as N2. intros Hm Hw E. assert (GS : Z.gcd s n = 1).
    { apply Zgcd_1_rel_prime. apply rel_prime_sym, prime_rel_prime; [exact n_prime|]. intros [k K]. subst s. rewrite <- Z.mul_assoc, (Z.mul_comm n), Z.mul_assoc, Z.mod_mul in E by lia. discriminate. }
    destruct (ecdsa_verify_form p a b am G n pvt Q m r s HA HD (proj1 HQ) Q_odd Hm GS) as (w' & Hw' & E' & F). rewrite F. rewrite (w_unique s w w') by assumption. reflexivity.
  Qed.
  Lemma v_err m r s : Z.gcd s n <> 1 -> V m r s = Err (-1).
  Proof. pose proof n_gt as N2. intro H. eapply ecdsa_verify_err; [|exact H|reflexivity]. lia. Qed.
  Lemma w_exists s : Z.gcd s n = 1 -> exists w, 0 <= w < n /\ (s * w) mod n = 1.
  Proof. pose proof n_gt as N2. intro H0. destruct (inv_ofZ s n ltac:(lia)) as [I _]. destruct (I H0) as (w & _ & Hw & E). rewrite Z.mod_1_l in E by lia. exists w. auto. Qed.

  (** s modulo n *)
  Lemma v_shift m r s k : bytes m -> V m r (s + k * n) = V m r s.
  Proof.
    pose proof n_gt as N2. intro Hm. assert (GE : Z.gcd (s + k * n) n = Z.gcd s n) by (rewrite (Z.gcd_comm _ n), (Z.gcd_comm s); apply Z.gcd_add_mult_diag_r).
    destruct (Z.eq_dec (Z.gcd s n) 1) as [D|D]; [|rewrite !v_err by congruence; reflexivity].
    destruct (w_exists s D) as (w & Hw & E). rewrite (v_form m r s w) by assumption. apply v_form; [assumption|assumption|].
    rewrite <- E. replace ((s + k * n) * w) with (s * w + (k * w) * n) by ring. apply Z.mod_add. lia.
  Qed.
  (** the message number modulo n *)
  Lemma v_same m m' r s : bytes m -> bytes m' -> msg_num n m mod n = msg_num n m' mod n -> V m r s = V m' r s.
  Proof.
    pose proof n_gt as N2. intros Hm Hm' M. destruct (Z.eq_dec (Z.gcd s n) 1) as [D|D]; [|rewrite !v_err by assumption; reflexivity].
    destruct (w_exists s D) as (w & Hw & E). rewrite !(v_form _ r s w) by assumption. unfold ecdsa_point. rewrite (mod_mul_l (msg_num n m) (msg_num n m') w n ltac:(lia) M). reflexivity.
  Qed.

  (** negation *)
  Lemma on_mul k P : on_curve p a b P -> 0 <= k -> on_curve p a b (ec_mul p a k P).
  Proof. intros HP Hk. apply (ec_mul_on p a b good); assumption. Qed.
  Lemma inverse_of A A' : on_curve p a b A -> on_curve p a b A' -> ec_add p a A A' = None -> A' = ec_neg p A.
  Proof.
    intros H H' E. pose proof (ec_neg_on p a b good A H) as HN. transitivity (ec_add p a (ec_add p a A A') (ec_neg p A)).
    - rewrite (ec_add_comm p a b good A A') by assumption. rewrite (ec_add_assoc p a b good) by assumption. rewrite (ec_add_neg p a b good) by assumption. symmetry. apply ec_add_0_r.
    - rewrite E. reflexivity.
  Qed.
  Lemma pair_none P u u' : on_curve p a b P -> ec_mul p a n P = None -> 0 <= u -> 0 <= u' -> (u + u') mod n = 0 -> ec_add p a (ec_mul p a u P) (ec_mul p a u' P) = None.
  Proof.
    pose proof n_gt as N2. intros HP E Hu Hu' S. rewrite <- (ec_mul_add p a b good) by assumption. rewrite (ec_mul_period p a b good n (u + u') 0 P); [reflexivity|assumption|lia|assumption|lia|lia|rewrite S, Z.mod_0_l by lia; reflexivity].
  Qed.
  Lemma x_neg P : xcoord (ec_neg p P) = xcoord P. Proof. destruct P as [[x y]|]; reflexivity. Qed.
  Lemma pt_neg u v u' v' : 0 <= u -> 0 <= v -> 0 <= u' -> 0 <= v' -> (u + u') mod n = 0 -> (v + v') mod n = 0 ->
    xcoord (ec_add p a (ec_mul p a u' G) (ec_mul p a v' Q)) = xcoord (ec_add p a (ec_mul p a u G) (ec_mul p a v Q)).
  Proof.
    intros Hu Hv Hu' Hv' S T. pose proof (on_mul u G G_on Hu) as O1. pose proof (on_mul u' G G_on Hu') as O2. pose proof (on_mul v Q (proj1 HQ) Hv) as O3. pose proof (on_mul v' Q (proj1 HQ) Hv') as O4.
    pose proof (pair_none G u u' G_on G_n Hu Hu' S) as E1. pose proof (pair_none Q v v' (proj1 HQ) (proj2 HQ) Hv Hv' T) as E2.
    revert O1 O2 O3 O4 E1 E2. generalize (ec_mul p a u G) (ec_mul p a u' G) (ec_mul p a v Q) (ec_mul p a v' Q). intros A A' B B' O1 O2 O3 O4 E1 E2.
    assert (OA : on_curve p a b (ec_add p a A B)) by (apply (ec_add_on p a b good); assumption). assert (OA' : on_curve p a b (ec_add p a A' B')) by (apply (ec_add_on p a b good); assumption).
    rewrite (inverse_of (ec_add p a A B) (ec_add p a A' B')); [apply x_neg|exact OA|exact OA'|].
    rewrite (ec_add_assoc p a b good A B) by assumption. rewrite <- (ec_add_assoc p a b good B A' B') by assumption. rewrite (ec_add_comm p a b good B A') by assumption.
    rewrite (ec_add_assoc p a b good A' B B') by assumption. rewrite E2, ec_add_0_r. exact E1.
  Qed.
  Lemma sum0 x y : (x + y) mod n = 0 -> (x mod n + y mod n) mod n = 0.
  Proof. pose proof n_gt as N2. intro E. rewrite <- Z.add_mod by lia. exact E. Qed.
  Lemma v_opp m r s : bytes m -> V m r (- s) = V m r s.
  Proof.
    pose proof n_gt as N2. intro Hm. destruct (Z.eq_dec (Z.gcd s n) 1) as [D|D]; [|rewrite !v_err by (rewrite ?Z.gcd_opp_l; exact D); reflexivity].
    destruct (w_exists s D) as (w & Hw & E). assert (W0 : w <> 0) by (intros ->; rewrite Z.mul_0_r, Z.mod_0_l in E by lia; discriminate).
    rewrite (v_form m r s w) by assumption. rewrite (v_form m r (- s) (n - w)); [|exact Hm|lia|rewrite <- E; replace (- s * (n - w)) with (s * w + (- s) * n) by ring; apply Z.mod_add; lia].
    unfold ecdsa_point. rewrite (pt_neg (msg_num n m * w mod n) (r * w mod n)); [reflexivity|apply Z.mod_pos_bound; lia..| |]; apply sum0.
    - replace (msg_num n m * w + msg_num n m * (n - w)) with (msg_num n m * n) by ring. apply Z.mod_mul. lia.
    - replace (r * w + r * (n - w)) with (r * n) by ring. apply Z.mod_mul. lia.
  Qed.
  Lemma v_neg m m' r s : bytes m -> bytes m' -> (msg_num n m + msg_num n m') mod n = 0 -> V m' (- r) s = V m r s.
  Proof.
    pose proof n_gt as N2. intros Hm Hm' S. destruct (Z.eq_dec (Z.gcd s n) 1) as [D|D]; [|rewrite !v_err by exact D; reflexivity].
    destruct (w_exists s D) as (w & Hw & E). rewrite (v_form m r s w), (v_form m' (- r) s w) by assumption. rewrite Z.abs_opp.
    unfold ecdsa_point. rewrite (pt_neg (msg_num n m * w mod n) (r * w mod n)); [reflexivity|apply Z.mod_pos_bound; lia..| |]; apply sum0.
    - rewrite <- Z.mul_add_distr_r. rewrite Z.mul_mod, S by lia. rewrite Z.mul_0_l. apply Z.mod_0_l. lia.
    - replace (r * w + - r * w) with 0 by ring. apply Z.mod_0_l. lia.
  Qed.

  (** a signature computed from the public key *)
  Lemma v_exist m u t ti : bytes m -> 0 <= u < n -> 0 < t < n -> (t * ti) mod n = 1 ->
    let x := xcoord (ec_add p a (ec_mul p a u G) (ec_mul p a t Q)) mod n in
    x <> 0 -> msg_num n m mod n = (u * (x * ti)) mod n -> V m x (x * ti) = Ok 0.
  Proof.
    pose proof n_gt as N2. intros Hm Hu Ht T x X0 M. assert (Hx : 0 <= x < n) by (apply Z.mod_pos_bound; lia).
    assert (XE : xcoord (ec_add p a (ec_mul p a u G) (ec_mul p a t Q)) mod n = x) by reflexivity. clearbody x.
    destruct (w_exists x (gcd_prime_small n x n_prime ltac:(lia))) as (xi & Hxi & XI).
    assert (ONE : forall y z, z mod n = 1 -> (y * z) mod n = y mod n) by (intros y z Z1; replace y with (y * 1) at 2 by ring; apply mod_mul; [lia|reflexivity|rewrite Z1, Z.mod_1_l by lia; reflexivity]).
    assert (WW : forall y, (y * ((t * xi) mod n)) mod n = (y * (t * xi)) mod n) by (intro y; apply mod_mul; [lia|reflexivity|apply mod_modl; lia]).
    rewrite (v_form m x (x * ti) ((t * xi) mod n)); [|exact Hm|apply Z.mod_pos_bound; lia|rewrite WW; replace (x * ti * (t * xi)) with ((x * xi) * (t * ti)) by ring; rewrite ONE; assumption].
    assert (U1 : (msg_num n m * ((t * xi) mod n)) mod n = u).
    { rewrite WW. rewrite (mod_mul_l (msg_num n m) (u * (x * ti)) (t * xi) n ltac:(lia) M). replace (u * (x * ti) * (t * xi)) with (u * (x * xi) * (t * ti)) by ring. rewrite !ONE by assumption. apply Z.mod_small. exact Hu. }
    assert (U2 : (x * ((t * xi) mod n)) mod n = t) by (rewrite WW; replace (x * (t * xi)) with (t * (x * xi)) by ring; rewrite ONE by assumption; apply Z.mod_small; lia).
    unfold ecdsa_point. rewrite U1, U2, XE. rewrite (Z.abs_eq x) by lia. rewrite Z.eqb_refl. reflexivity.
  Qed.
End Forge.

(** the point at infinity as public key *)
Lemma zero_public p a b n : public_point p a b n None.
Proof. split; [exact I|apply ec_mul_None]. Qed.
Lemma v_zero p a b am G n pvt m k ki : a_rep am a -> ecdsa_domain p a b G n -> bytes m -> 0 < k < n -> (k * ki) mod n = 1 -> msg_num n m mod n <> 0 ->
  ecdsa_verify {| sa_grp := egrp p am b G n; sa_d := pvt; sa_q := ept None |} (ofZ (xcoord (ec_mul p a k G) mod n)) (ofZ (msg_num n m * ki)) m = Ok 0.
Proof.
  intros HA HD Hm Hk K Z0. pose proof (n_gt _ _ _ _ _ HD) as N2. remember (msg_num n m) as z eqn:EZ. remember (xcoord (ec_mul p a k G) mod n) as x eqn:EX.
  assert (Hx : 0 <= x < n) by (rewrite EX; apply Z.mod_pos_bound; lia). pose proof (Z.mod_pos_bound z n ltac:(lia)) as Bz. assert (Bz' : 0 < z mod n < n) by (clear - Bz Z0; lia).
  destruct (w_exists _ _ _ _ _ HD (z mod n) (gcd_prime_small n _ (n_prime _ _ _ _ _ HD) Bz')) as (zi & Hzi & ZI).
  assert (ZI' : (z * zi) mod n = 1) by (rewrite <- ZI; apply mod_mul; [lia|symmetry; apply mod_modl; lia|reflexivity]).
  assert (ONE : forall y z, z mod n = 1 -> (y * z) mod n = y mod n) by (intros y v Z1; replace y with (y * 1) at 2 by ring; apply mod_mul; [lia|reflexivity|rewrite Z1, Z.mod_1_l by lia; reflexivity]).
  assert (WW : forall y, (y * ((k * zi) mod n)) mod n = (y * (k * zi)) mod n) by (intro y; apply mod_mul; [lia|reflexivity|apply mod_modl; lia]).
  rewrite (v_form p a b am G n pvt None HA HD (zero_public p a b n) m x (z * ki) ((k * zi) mod n)); [|exact Hm|apply Z.mod_pos_bound; lia|rewrite WW; replace (z * ki * (k * zi)) with ((z * zi) * (k * ki)) by ring; rewrite ONE; assumption].
  rewrite <- EZ. unfold ecdsa_point. rewrite ec_mul_None, ec_add_0_r. assert (U1 : (z * ((k * zi) mod n)) mod n = k) by (rewrite WW; replace (z * (k * zi)) with (k * (z * zi)) by ring; rewrite ONE by assumption; apply Z.mod_small; lia).
  rewrite U1, <- EX. rewrite (Z.abs_eq x) by lia. rewrite Z.eqb_refl. reflexivity.
Qed.
(** exactly the solutions of the signing equation *)
Lemma v_exact p a b am G n d m r s : a_rep am a -> ecdsa_domain p a b G n -> 0 <= d -> bytes m ->
  ecdsa_verify (ekey p a am b G n d) (ofZ r) (ofZ s) m = Ok 0 <->
  Z.gcd s n = 1 /\ exists k, 0 <= k < n /\ (s * k) mod n = (msg_num n m + r * d) mod n /\ xcoord (ec_mul p a k G) mod n = Z.abs r.
Proof.
  intros HA HD Hd Hm. pose proof (n_gt _ _ _ _ _ HD) as N2. pose proof (good _ _ _ _ _ HD) as HG. pose proof (G_on _ _ _ _ _ HD) as HP.
  assert (HQ : public_point p a b n (ec_mul p a d G)).
  { split; [apply (ec_mul_on p a b HG); assumption|]. rewrite (ec_mul_mul p a b HG) by (auto; lia). rewrite Z.mul_comm, <- (ec_mul_mul p a b HG) by (auto; lia). rewrite (G_n _ _ _ _ _ HD). apply ec_mul_None. }
  unfold ekey. remember (msg_num n m) as z eqn:EZ.
  destruct (Z.eq_dec (Z.gcd s n) 1) as [D|D].
  2:{ rewrite (v_err p a b am G n (ofZ d) (ec_mul p a d G) HD m r s D). split; [discriminate|]. intros [E _]. contradiction. }
  destruct (w_exists _ _ _ _ _ HD s D) as (w & Hw & E). rewrite (v_form p a b am G n (ofZ d) _ HA HD HQ m r s w Hm Hw E). rewrite <- EZ.
  assert (ONE : forall y z, z mod n = 1 -> (y * z) mod n = y mod n) by (intros y v Z1; replace y with (y * 1) at 2 by ring; apply mod_mul; [lia|reflexivity|rewrite Z1, Z.mod_1_l by lia; reflexivity]).
  assert (PT : forall k, 0 <= k < n -> k = ((z + r * d) * w) mod n -> ecdsa_point p a G (ec_mul p a d G) n z r w = ec_mul p a k G).
  { intros k Hk K. unfold ecdsa_point. pose proof (Z.mod_pos_bound (z * w) n ltac:(lia)) as B1. pose proof (Z.mod_pos_bound (r * w) n ltac:(lia)) as B2.
    rewrite (ec_mul_mul p a b HG) by (auto; lia). assert (NN : 0 <= (r * w) mod n * d) by (apply Z.mul_nonneg_nonneg; [apply B2|exact Hd]). rewrite <- (ec_mul_add p a b HG) by first [exact HP|apply B1|exact NN].
    apply (ec_mul_period p a b HG n); [assumption|clear - N2; lia|exact (G_n _ _ _ _ _ HD)|apply Z.add_nonneg_nonneg; [apply B1|exact NN]|apply Hk|]. rewrite (Z.mod_small k n) by exact Hk. rewrite K. replace ((z + r * d) * w) with (z * w + r * w * d) by ring.
    apply mod_add; [lia|apply mod_modl; lia|apply mod_mul; [lia|apply mod_modl; lia|reflexivity]]. }
  split.
  - destruct (Z.eqb_spec (xcoord (ecdsa_point p a G (ec_mul p a d G) n z r w) mod n) (Z.abs r)) as [X|X]; [|discriminate]. intros _. split; [exact D|]. exists (((z + r * d) * w) mod n).
    split; [apply Z.mod_pos_bound; lia|]. split; [|rewrite <- (PT (((z + r * d) * w) mod n)); [exact X|apply Z.mod_pos_bound; lia|reflexivity]].
    rewrite Z.mul_mod_idemp_r by lia. replace (s * ((z + r * d) * w)) with ((z + r * d) * (s * w)) by ring. apply ONE. exact E.
  - intros [_ (k & Hk & K & X)]. rewrite (PT k Hk); [rewrite X, Z.eqb_refl; reflexivity|].
    rewrite <- (mod_mul_l (s * k) (z + r * d) w n ltac:(lia) K). replace (s * k * w) with (k * (s * w)) by ring. rewrite ONE by exact E. symmetry. apply Z.mod_small. exact Hk.
Qed.
