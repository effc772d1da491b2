(** Concrete runs of prime and key generation. *)
From Coq Require Import Znumtheory Zpow_facts.
From Verif Require Import Base Bits BytesSpec Bytes Lists Fermat NumTh MpiModel MpiSpec MpiDigits MpiMulModel MpiMul MpiMul2 MpiSqr MpiCanon MpiDivModel MpiDiv MpiAlgModel MpiAlg MpiAlg2 MpiIOModel MpiIO MpiTextSpec MpiRand MrDraws PkModel PkSpec Pk KeygenModel KeygenSpec Keygen KeygenRsa KeygenDsa KeygenRun EcPk.

Ltac Zify.zify_post_hook ::= idtac.

(** A generator given by the value of the bytes at each place. *)
Definition valued (f : list nat -> Z) : src := {| cap := fun _ => 8%nat; byt := fun l n => be_bytes n (f l) |}.
Lemma valued_ok f : source_ok (valued f).
Proof. intros l n. cbn [byt valued]. split; [apply be_bytes_bytes|apply be_bytes_length]. Qed.

(** *** DSA *)
Definition dT : Z := 9173994463960286046443283581208347763186259956463887770437465998753165190247017018409995697629807120379686.
Definition dQ : Z := 3 * 2 ^ 158 + 25.
Definition dP : Z := dT * dQ + 1.
Definition dsa_draws (x : Z) (l : list nat) : Z := match l with
  | [O; O; O; O] => dQ | O :: O :: _ => dQ + 1
  | [O; S O; O; O] => dP - 1 | O :: S O :: _ => dP + 1
  | [O; 2%nat; O] => dP | _ => x end.

Lemma mod_gt a P d : 0 < P -> (d | P) -> 4 < d -> a mod d = 4 -> 1 < a mod P.
Proof.
  intros HP [k HK] Hd M. pose proof (Z.mod_pos_bound a P HP) as MB. pose proof (Z.div_mod a P ltac:(lia)) as DM.
  assert (E : a mod P mod d = 4).
  { rewrite <- M. rewrite DM at 2. rewrite HK at 2. rewrite <- (Z.mod_add (a mod P) (k * (a / P)) d) by lia. f_equal. ring. }
  destruct (Z.lt_ge_cases 1 (a mod P)) as [|L]; [assumption|].
  rewrite (Z.mod_small (a mod P)) in E by lia. lia.
Qed.
Lemma dG_gt : 1 < 2 ^ dT mod dP.
Proof.
  apply (mod_gt _ dP 1013).
  - vm_compute. reflexivity.
  - exists (dP / 1013). vm_compute. reflexivity.
  - reflexivity.
  - transitivity (2 ^ 2 mod 1013); [|reflexivity]. apply (pow_period 2 1012 1013 dT 2).
    + reflexivity.
    + reflexivity.
    + vm_compute. reflexivity.
    + vm_compute. discriminate.
    + discriminate.
    + vm_compute. reflexivity.
Qed.
Lemma dsa_case v c0 : 2 ^ Z.log2 dT <= v < 2 ^ (Z.log2 dT + 1) ->
  dsa_keygen (valued (dsa_draws v)) 0 c0 = Ok {| dsa_p := ofZ dP; dsa_q := ofZ dQ; dsa_g := ofZ (2 ^ dT mod dP); dsa_pvt := ofZ (v mod dT);
    dsa_pub := ofZ ((2 ^ dT mod dP) ^ (v mod dT) mod dP) |}.
Proof.
  intro Hv. rewrite keygen_loop. replace ((512 + 0 * 64) mod 2 ^ 32) with 512 by reflexivity.
  destruct (to_nat_S 4096 eq_refl) as (lim & EL). destruct (to_nat_S 1024 eq_refl) as (n & EN). rewrite EL, EN. clear EL EN.
  apply (dsa_run (valued (dsa_draws v)) 160 512 dP dQ 2 dP dT v lim n c0).
  - apply valued_ok.
  - intro l. cbn [cap valued]. lia.
  - lia.
  - exists 20. reflexivity.
  - vm_compute. discriminate.
  - vm_compute. reflexivity.
  - vm_compute. reflexivity.
  - vm_compute. reflexivity.
  - lia.
  - vm_compute. reflexivity.
  - vm_compute. reflexivity.
  - vm_compute. reflexivity.
  - unfold dP. ring.
  - vm_compute. reflexivity.
  - exact Hv.
  - exact dG_gt.
  - split; [vm_compute; discriminate|vm_compute; reflexivity].
  - vm_compute. reflexivity.
  - cbn [byt valued dsa_draws]. apply be_val_small. split; [vm_compute; discriminate|vm_compute; reflexivity].
  - intros j Hj. destruct j as [|j]; [exfalso; lia|]. cbn [byt valued dsa_draws]. apply be_val_small. split; [vm_compute; discriminate|vm_compute; reflexivity].
  - cbn [byt valued dsa_draws]. apply be_val_small. split; [vm_compute; discriminate|vm_compute; reflexivity].
  - intros j Hj. destruct j as [|j]; [exfalso; lia|]. cbn [byt valued dsa_draws]. apply be_val_small. split; [vm_compute; discriminate|vm_compute; reflexivity].
  - cbn [byt valued dsa_draws]. apply be_val_small. split; [vm_compute; discriminate|vm_compute; reflexivity].
  - cbn [byt valued dsa_draws]. apply be_val_small. replace (Z.log2 dT) with 351 in * by (vm_compute; reflexivity).
    split; [clear - Hv; pose proof (pow2_pos 351); lia|]. eapply Z.lt_le_trans; [apply Hv|vm_compute; discriminate].
Qed.
(** the private key is not below q *)
Lemma dsa_large c0 : exists s c, source_ok s /\ dsa_keygen s 0 c0 = Ok c /\ mval (dsa_q c) < mval (dsa_pvt c).
Proof.
  eexists. eexists. split; [apply (valued_ok (dsa_draws (dT - 1)))|]. split.
  - apply dsa_case. replace (Z.log2 dT) with 351 in * by (vm_compute; reflexivity). split; [vm_compute; discriminate|vm_compute; reflexivity].
  - cbn [dsa_q dsa_pvt]. rewrite !mval_ofZ. vm_compute. reflexivity.
Qed.
(** the private key is zero, the public key one *)
Lemma dsa_zero c0 : exists s c, source_ok s /\ dsa_keygen s 0 c0 = Ok c /\ mval (dsa_pvt c) = 0 /\ mval (dsa_pub c) = 1.
Proof.
  eexists. eexists. split; [apply (valued_ok (dsa_draws dT))|]. split.
  - apply dsa_case. replace (Z.log2 dT) with 351 in * by (vm_compute; reflexivity). split; [vm_compute; discriminate|vm_compute; reflexivity].
  - cbn [dsa_pub dsa_pvt]. rewrite !mval_ofZ. replace (dT mod dT) with 0 by (vm_compute; reflexivity). split; [reflexivity|].
    rewrite Z.pow_0_r. vm_compute. reflexivity.
Qed.

(** *** RSA *)
Definition two_primes (l : list nat) : Z := match l with _ :: O :: _ => 193 | _ => 197 end.
Definition one_prime (l : list nat) : Z := 193.
Definition rkey_of (n e d p q : mpi) : rsakey := {| rk_n := n; rk_e := e; rk_d := d; rk_p := p; rk_q := q |}.

Lemma rsa_keygen_loop jx jy s bits e k e0 : (if e =? 0 then Ok (rk_e k) else set_int e) = Ok e0 -> exists n, Z.to_nat 10000 = S n /\
  rsa_keygen jx jy s bits e k = rsa_loop (S n) O jx jy s bits e (rkey_of (rk_n k) e0 (rk_d k) (rk_p k) (rk_q k)) mzero.
Proof.
  intro H. unfold rsa_keygen. destruct (to_nat_S 10000 eq_refl) as (n & E). exists n. split; [exact E|]. rewrite E, H. reflexivity.
Qed.

Lemma loop_S n i s bits e k g k' g' : rsa_round 0 0 (at_ s i) bits e k g = Ok (0, k', g') -> (cmp g' mone =? 0) = false ->
  rsa_loop (S n) i 0 0 s bits e k g = rsa_loop n (S i) 0 0 s bits e k' g'.
Proof. intros H C. cbn [rsa_loop]. rewrite H. cbn [bind]. rewrite C. reflexivity. Qed.
Lemma loop_O i s bits e k g : rsa_loop 0 i 0 0 s bits e k g = Ok (0, k).
Proof. reflexivity. Qed.

(** an even public exponent *)
Lemma even_round i d n p q g : neg n = false ->
  rsa_round 0 0 (at_ (valued two_primes) i) 16 2 (rkey_of n (ofZ 2) d p q) g = Ok (0, rkey_of (ofZ 38021) (ofZ 2) d (ofZ 193) (ofZ 197), ofZ 2).
Proof. intro H. destruct n as [[|] dn]; [discriminate|]. vm_compute. reflexivity. Qed.
Lemma even_loop d : forall n i m p q g, neg m = false ->
  exists k, rsa_loop (S n) i 0 0 (valued two_primes) 16 2 (rkey_of m (ofZ 2) d p q) g = Ok (0, k) /\
    k = rkey_of (ofZ 38021) (ofZ 2) d (ofZ 193) (ofZ 197).
Proof.
  induction n as [|n IH]; intros i m p q g Hm; pose proof (even_round i d m p q g Hm) as R.
  - pose proof (loop_S O i _ _ _ _ _ _ _ R eq_refl) as L. rewrite L. eexists. split; [apply loop_O|reflexivity].
  - pose proof (loop_S (S n) i _ _ _ _ _ _ _ R eq_refl) as L. rewrite L. apply (IH (S i) (ofZ 38021)). reflexivity.
Qed.
Lemma keygen_even : rsa_keygen 0 0 (valued two_primes) 16 2 rsa_fresh = Ok (0, rkey_of (ofZ 38021) (ofZ 2) mzero (ofZ 193) (ofZ 197)).
Proof.
  destruct (rsa_keygen_loop 0 0 (valued two_primes) 16 2 rsa_fresh (ofZ 2) eq_refl) as (n & _ & ->).
  destruct (even_loop mzero n O mzero mzero mzero mzero eq_refl) as (k & E & ->). exact E.
Qed.

(** an odd size *)
Lemma odd_round i d n p q g : neg n = false ->
  rsa_round 0 0 (at_ (valued two_primes) i) 17 5 (rkey_of n (ofZ 5) d p q) g = Ok (0, rkey_of (ofZ 38021) (ofZ 5) d (ofZ 193) (ofZ 197), g).
Proof. intro H. destruct n as [[|] dn]; [discriminate|]. vm_compute. reflexivity. Qed.
Lemma odd_loop d : forall n i m p q, neg m = false ->
  exists k, rsa_loop (S n) i 0 0 (valued two_primes) 17 5 (rkey_of m (ofZ 5) d p q) mzero = Ok (0, k) /\
    k = rkey_of (ofZ 38021) (ofZ 5) d (ofZ 193) (ofZ 197).
Proof.
  induction n as [|n IH]; intros i m p q Hm; pose proof (odd_round i d m p q mzero Hm) as R.
  - pose proof (loop_S O i _ _ _ _ _ _ _ R eq_refl) as L. rewrite L. eexists. split; [apply loop_O|reflexivity].
  - pose proof (loop_S (S n) i _ _ _ _ _ _ _ R eq_refl) as L. rewrite L. apply (IH (S i) (ofZ 38021)). reflexivity.
Qed.
Lemma keygen_odd : rsa_keygen 0 0 (valued two_primes) 17 5 rsa_fresh = Ok (0, rkey_of (ofZ 38021) (ofZ 5) mzero (ofZ 193) (ofZ 197)).
Proof.
  destruct (rsa_keygen_loop 0 0 (valued two_primes) 17 5 rsa_fresh (ofZ 5) eq_refl) as (n & _ & ->).
  destruct (odd_loop mzero n O mzero mzero mzero eq_refl) as (k & E & ->). exact E.
Qed.

(** the same prime every time: the modulus is not computed *)
Lemma same_round i d n p q g :
  rsa_round 0 0 (at_ (valued one_prime) i) 16 5 (rkey_of n (ofZ 5) d p q) g = Ok (0, rkey_of n (ofZ 5) d (ofZ 193) (ofZ 193), g).
Proof. vm_compute. reflexivity. Qed.
Lemma same_loop d m : forall n i p q,
  exists k, rsa_loop (S n) i 0 0 (valued one_prime) 16 5 (rkey_of m (ofZ 5) d p q) mzero = Ok (0, k) /\
    k = rkey_of m (ofZ 5) d (ofZ 193) (ofZ 193).
Proof.
  induction n as [|n IH]; intros i p q; pose proof (same_round i d m p q mzero) as R.
  - pose proof (loop_S O i _ _ _ _ _ _ _ R eq_refl) as L. rewrite L. eexists. split; [apply loop_O|reflexivity].
  - pose proof (loop_S (S n) i _ _ _ _ _ _ _ R eq_refl) as L. rewrite L. apply IH.
Qed.
Lemma keygen_same : rsa_keygen 0 0 (valued one_prime) 16 5 rsa_fresh = Ok (0, rkey_of mzero (ofZ 5) mzero (ofZ 193) (ofZ 193)).
Proof.
  destruct (rsa_keygen_loop 0 0 (valued one_prime) 16 5 rsa_fresh (ofZ 5) eq_refl) as (n & _ & ->).
  destruct (same_loop mzero mzero n O mzero mzero) as (k & E & ->). exact E.
Qed.

(** a good key *)
Lemma keygen_good : rsa_keygen 0 0 (valued two_primes) 16 5 rsa_fresh = Ok (0, rkey_of (ofZ 38021) (ofZ 5) mzero (ofZ 193) (ofZ 197)).
Proof.
  destruct (rsa_keygen_loop 0 0 (valued two_primes) 16 5 rsa_fresh (ofZ 5) eq_refl) as (n & _ & ->). cbn [rsa_loop].
  assert (R : rsa_round 0 0 (at_ (valued two_primes) 0) 16 5 (rkey_of mzero (ofZ 5) mzero mzero mzero) mzero =
    Ok (0, rkey_of (ofZ 38021) (ofZ 5) mzero (ofZ 193) (ofZ 197), mone)) by (vm_compute; reflexivity).
  unfold rkey_of, rsa_fresh in *. cbn [rk_n rk_e rk_d rk_p rk_q].
  rewrite R. reflexivity.
Qed.
Lemma key_not_good bits e m E d p q : ~ (Z.log2 m + 1 = bits) \/ p = q \/ (e <> 0 /\ Z.gcd e (phi p q) <> 1 /\ 0 < e) ->
  ~ rsa_good bits e (rkey_of (ofZ m) (ofZ E) d (ofZ p) (ofZ q)).
Proof.
  intros H (P & Q & E' & KP & KQ & KN & KE & _ & _ & _ & _ & _ & _ & NE & LG & HE & EE & G). cbn [rk_n rk_e rk_p rk_q rkey_of] in *.
  assert (p = P) by (rewrite <- (mval_ofZ p), KP; apply mval_ofZ). assert (q = Q) by (rewrite <- (mval_ofZ q), KQ; apply mval_ofZ).
  assert (m = P * Q) by (rewrite <- (mval_ofZ m), KN; apply mval_ofZ). subst p q m.
  destruct H as [H|[H|(H1 & H2 & H3)]]; [exact (H LG)|exact (NE H)|]. specialize (EE H1). subst E'. exact (H2 (G H3)).
Qed.

(** *** Primes *)
Definition top_zero (l : list nat) : Z := 3.
Lemma prime_short p0 : mprime (valued top_zero) 72 None p0 = Ok (0, ofZ 3, 1%nat).
Proof. vm_compute. reflexivity. Qed.
Lemma prime_last p0 : mprime (valued one_prime) 8 (Some 1%nat) p0 = Ok (-1, ofZ 193, 1%nat).
Proof. vm_compute. reflexivity. Qed.
Lemma prime_second p0 : mprime (valued one_prime) 8 (Some 2%nat) p0 = Ok (0, ofZ 193, 1%nat).
Proof. vm_compute. reflexivity. Qed.

(** the number 1 as candidate: its primality test does not end *)
Definition all_one (l : list nat) : Z := 1.
Lemma prime_one p0 : mprime (valued all_one) 72 None p0 = Fuel.
Proof. vm_compute. reflexivity. Qed.

(** *** DSA with smaller sizes and primes *)
Fixpoint trial (n : nat) (d m : Z) : bool := match n with O => true | S n => if m mod d =? 0 then false else trial n (d + 1) m end.
Lemma trial_ok m : forall n d, 0 < d -> trial n d m = true -> forall r, d <= r < d + Z.of_nat n -> ~ (r | m).
Proof.
  induction n as [|n IH]; intros d Hd H r Hr D; [lia|]. cbn [trial] in H. destruct (Z.eqb_spec (m mod d) 0) as [|N]; [discriminate|].
  destruct (Z.eq_dec r d) as [->|NE]; [apply N, Z.mod_divide; [lia|exact D]|]. apply (IH (d + 1) ltac:(lia) H r); [lia|exact D].
Qed.
Lemma trial_prime m k : 1 < m -> 0 < k -> m < k * k -> trial (Z.to_nat (k - 2)) 2 m = true -> prime m.
Proof.
  intros Hm Hk L H. apply prime_by_divisors; [exact Hm|]. intros r PR D. destruct (Z.lt_ge_cases m (r * r)) as [|G]; [assumption|].
  exfalso. pose proof (prime_ge_2 r PR). apply (trial_ok m _ 2 ltac:(lia) H r); [|exact D]. nia.
Qed.
Definition sQ : Z := 49157.
Definition sT : Z := 186.
Definition sP : Z := sT * sQ + 1.
Lemma sQ_prime : prime sQ.
Proof. apply (trial_prime sQ 222); vm_compute; reflexivity. Qed.
Lemma sP_prime : prime sP.
Proof. apply (trial_prime sP 3024); vm_compute; reflexivity. Qed.
Definition small_draws (l : list nat) : Z := match l with
  | [O; O; O; O] => sQ | O :: O :: _ => sQ + 1
  | [O; S O; O; O] => sP - 1 | O :: S O :: _ => sP + 1
  | [O; 2%nat; O] => sP | _ => 131 end.
Definition sG : Z := Eval vm_compute in Zpow_mod 2 sT sP.
Lemma sG_ok : 2 ^ sT mod sP = sG.
Proof. rewrite <- Zpow_mod_correct by discriminate. vm_compute. reflexivity. Qed.
Lemma small_case c0 lim n : dsa_loop (S lim) (S n) 0 (valued small_draws) 16 24 c0 =
  Ok {| dsa_p := ofZ sP; dsa_q := ofZ sQ; dsa_g := ofZ sG; dsa_pvt := ofZ 131; dsa_pub := ofZ (sG ^ 131 mod sP) |}.
Proof.
  rewrite <- sG_ok. apply (dsa_run (valued small_draws) 16 24 sP sQ 2 sP sT 131 lim n c0).
  - apply valued_ok.
  - intro l. cbn [cap valued]. lia.
  - lia.
  - exists 2. reflexivity.
  - vm_compute. discriminate.
  - vm_compute. reflexivity.
  - vm_compute. reflexivity.
  - vm_compute. reflexivity.
  - lia.
  - vm_compute. reflexivity.
  - vm_compute. reflexivity.
  - vm_compute. reflexivity.
  - unfold sP. ring.
  - vm_compute. reflexivity.
  - split; [vm_compute; discriminate|vm_compute; reflexivity].
  - rewrite sG_ok. reflexivity.
  - split; [vm_compute; discriminate|vm_compute; reflexivity].
  - vm_compute. reflexivity.
  - vm_compute. reflexivity.
  - intros j Hj. destruct j as [|j]; [exfalso; lia|]. vm_compute. reflexivity.
  - vm_compute. reflexivity.
  - intros j Hj. destruct j as [|j]; [exfalso; lia|]. vm_compute. reflexivity.
  - vm_compute. reflexivity.
  - vm_compute. reflexivity.
Qed.
Lemma small_made : dsa_made 16 24 sP sQ sG 131.
Proof.
  destruct (dsa_loop_inv (valued small_draws) 16 24 (valued_ok _) ltac:(lia) ltac:(lia) 1 1 0 _ _ (small_case {| dsa_p := mzero; dsa_q := mzero; dsa_g := mzero; dsa_pvt := mzero; dsa_pub := mzero |} 0 0)) as (P & Q & G & X & E & M).
  assert (EP : ofZ sP = ofZ P) by exact (f_equal dsa_p E). assert (EQ : ofZ sQ = ofZ Q) by exact (f_equal dsa_q E).
  assert (EG : ofZ sG = ofZ G) by exact (f_equal dsa_g E). assert (EX : ofZ 131 = ofZ X) by exact (f_equal dsa_pvt E).
  apply (f_equal mval) in EP, EQ, EG, EX. rewrite !mval_ofZ in EP, EQ, EG, EX. rewrite EP, EQ, EG, EX. exact M.
Qed.

(** *** Statements put together for the property file *)
Lemma strip2_zero : forall fuel b, strip2 fuel mzero b = Fuel.
Proof. induction fuel as [|f IH]; intro b; [reflexivity|]. exact (IH (S b)). Qed.
Lemma accepted_193 : accepted 193.
Proof.
  exists [193], [193], [193], [193], [193]. split; [|vm_compute; reflexivity].
  repeat (apply Forall_cons; [split; [repeat constructor; discriminate|reflexivity]|]). constructor.
Qed.
Lemma no_private k : rk_d k = mzero -> forall n e, ~ rsa_valid n e (mval (rk_d k)).
Proof. intros H n e (p & q & _ & _ & _ & _ & _ & D & _). rewrite H in D. discriminate. Qed.
Lemma dsa_made_sign P Q G X qbits pbits bin m r0 s0 : dsa_made qbits pbits P Q G X -> qbits <= 512 -> prime P -> prime Q -> draw_for Q bin -> bytes m ->
  let c := {| dsa_p := ofZ P; dsa_q := ofZ Q; dsa_g := ofZ G; dsa_pvt := ofZ X; dsa_pub := ofZ (G ^ X mod P) |} in
  exists r s, dsa_sign c r0 s0 bin m = Ok (0, r, s) /\ dsa_verify c r s m = Ok 0.
Proof.
  intros M HB PP PQ HD Hm. apply dsa_complete; auto.
  - exact (dsa_made_domain _ _ _ _ _ _ M PP PQ).
  - destruct M as (_ & _ & HQ & _). assert (2 ^ qbits <= 2 ^ 512) by (apply Z.pow_le_mono_r; lia). lia.
  - destruct M as (_ & _ & _ & _ & _ & _ & _ & _ & HX). apply HX.
Qed.
Lemma accepted_197 : accepted 197.
Proof.
  exists [197], [197], [197], [197], [197]. split; [|vm_compute; reflexivity].
  repeat (apply Forall_cons; [split; [repeat constructor; discriminate|reflexivity]|]). constructor.
Qed.
Lemma good_key : rsa_good 16 5 (rkey_of (ofZ 38021) (ofZ 5) mzero (ofZ 193) (ofZ 197)).
Proof.
  exists 193, 197, 5. do 4 (split; [reflexivity|]). split; [exact accepted_193|]. split; [exact accepted_197|].
  do 4 (split; [reflexivity|]). split; [discriminate|]. split; [reflexivity|]. split; [discriminate|]. split; [reflexivity|]. reflexivity.
Qed.
Lemma good_valid : rsa_valid 38021 5 15053.
Proof.
  exists 193, 197. split; [apply (trial_prime 193 15); vm_compute; reflexivity|]. split; [apply (trial_prime 197 15); vm_compute; reflexivity|].
  split; [discriminate|]. do 3 (split; [reflexivity|]). exists (5 * 15053 / Z.lcm 192 196). vm_compute. reflexivity.
Qed.
(** sources for the examples *)
Definition later (l : list nat) : Z := match l with O :: _ => 219 | _ => 193 end.
Definition never (l : list nat) : Z := 219.
