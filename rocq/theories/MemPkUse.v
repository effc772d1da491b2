(** DH, ElGamal and DSA in memory, put together: what is signed is accepted. *)
From Coq Require Import Znumtheory.
From Verif Require Import Base Lists BytesSpec Bytes MpiModel MpiSpec MpiDigits MpiCanon MpiIOModel MpiIO MpiTextSpec MpiRand PkModel PkSpec NumTh MpiMulModel MpiDivModel MpiAlgModel MpiAlg Pk Rsa Rsa2 MemModel MemSpec Mem MemOps MemAlgSpec MemEcpSpec MemBin MemEcdsa MemPkModel MemPkSpec MemFair MemRsa MemDsa MemElgamal.

Theorem dh_agree_fair e s n c p g x Y K : calm n s -> (c + 4 < n)%nat -> holding s c [p; g; x; Y; K] -> 1 < p -> 0 <= x ->
  unless_refused (dh_agree_m n c) e s (after e n (c + 3) true (ofZ (g ^ x mod p)) s).
Proof.
  intros C L (H0 & H1 & H2 & H3 & _) Pp Px. replace (S c) with (c + 1)%nat in H1 by lia. replace (S (S c)) with (c + 2)%nat in H2 by lia. replace (S (S (S c))) with (c + 3)%nat in H3 by lia.
  assert (WM : with_modulus n s (Some c) (Some p)) by (split; [lia|split; [exact H0|lia]]).
  exact (exp_fair e s n (c + 3) (c + 1) (c + 2) (Some c) g x (Some p) C ltac:(lia) ltac:(lia) ltac:(lia) (ex_intro _ _ H3) H1 H2 WM Px ltac:(left; intro F; injection F; lia)).
Qed.
Theorem dh_finalize_fair e s n c p g x Y K : calm n s -> (c + 4 < n)%nat -> holding s c [p; g; x; Y; K] -> 1 < p -> 0 <= x ->
  unless_refused (dh_finalize_m n c) e s (after e n (c + 4) true (ofZ (Y ^ x mod p)) s).
Proof.
  intros C L (H0 & _ & H2 & H3 & H4 & _) Pp Px. replace (S (S c)) with (c + 2)%nat in H2 by lia. replace (S (S (S c))) with (c + 3)%nat in H3 by lia. replace (S (S (S (S c)))) with (c + 4)%nat in H4 by lia.
  assert (WM : with_modulus n s (Some c) (Some p)) by (split; [lia|split; [exact H0|lia]]).
  exact (exp_fair e s n (c + 4) (c + 3) (c + 2) (Some c) Y x (Some p) C ltac:(lia) ltac:(lia) ltac:(lia) (ex_intro _ _ H4) H3 H2 WM Px ltac:(left; intro F; injection F; lia)).
Qed.
Theorem dh_secret_fair e s n c p g x y K : calm n s -> (c + 4 < n)%nat -> holding s c [p; g; x; g ^ y mod p; K] -> 1 < p -> 0 <= x -> 0 <= y ->
  unless_refused (dh_finalize_m n c) e s (after e n (c + 4) true (ofZ (g ^ (x * y) mod p)) s).
Proof.
  intros C L H Pp Px Py. rewrite Z.mul_comm, Z.pow_mul_r, <- (pow_mod (g ^ y)) by lia. exact (dh_finalize_fair e s n c p g x _ K C L H Pp Px).
Qed.
Theorem dh_agree_wild e s n c p g x Y K : (c + 4 < n)%nat -> holding s c [p; g; x; Y; K] -> 1 < p -> 0 <= x -> grant e (tick s) = false -> dh_agree_m n c e s = UB.
Proof.
  intros L (H0 & H1 & H2 & H3 & _) Pp Px G. replace (S (S c)) with (c + 2)%nat in H2 by lia. replace (S (S (S c))) with (c + 3)%nat in H3 by lia.
  assert (WM : with_modulus n s (Some c) (Some p)) by (split; [lia|split; [exact H0|lia]]).
  exact (exp_refused e s n (c + 3) (c + 1) (c + 2) (Some c) x (Some p) ltac:(lia) (ex_intro _ _ H3) H2 WM Px G).
Qed.
Theorem dh_finalize_wild e s n c p g x Y K : (c + 4 < n)%nat -> holding s c [p; g; x; Y; K] -> 1 < p -> 0 <= x -> grant e (tick s) = false -> dh_finalize_m n c e s = UB.
Proof.
  intros L (H0 & H1 & H2 & H3 & H4 & _) Pp Px G. replace (S (S c)) with (c + 2)%nat in H2 by lia. replace (S (S (S (S c)))) with (c + 4)%nat in H4 by lia.
  assert (WM : with_modulus n s (Some c) (Some p)) by (split; [lia|split; [exact H0|lia]]).
  exact (exp_refused e s n (c + 4) (c + 3) (c + 2) (Some c) x (Some p) ltac:(lia) (ex_intro _ _ H4) H2 WM Px G).
Qed.

(** * Signing and verifying *)
Lemma holding_same s s' l : forall c, (forall u, (c <= u < c + length l)%nat -> mem s' u = mem s u) -> holding s c l -> holding s' c l.
Proof.
  induction l as [|v l IH]; intros c F H; cbn [holding] in *; [exact I|]. destruct H as (H1 & H2). cbn [length] in F.
  split; [eapply has_same; [apply F; lia|exact H1]|apply IH; [intros u Hu; apply F; lia|exact H2]].
Qed.
Theorem dsa_use e s0 n c r s p q g x bin m : (forall k, grant e k = true) -> calm n s0 -> (c + 4 < n)%nat -> (r < n)%nat -> (s < n)%nat ->
  r <> s -> ~ (c <= r < c + 5)%nat -> ~ (c <= s < c + 5)%nat -> holding s0 c [p; q; g; x; g ^ x mod p] -> usable s0 r -> usable s0 s ->
  dsa_domain p q g -> q < 2 ^ 512 -> 0 <= x -> draw_for q bin -> bytes m ->
  wp (dsa_sign_m n c r s bin m) e s0 (fun rc s1 => rc = 0 /\
    wp (dsa_verify_m n c r s m) e s1 (fun rc s2 => rc = 0 /\ untouched n s1 s2)).
Proof.
  intros GR C Lc Lr Ls Nrs Nr Ns H Ur Us DD Lq Px DR Bm. pose proof DD as (P & Q & DV & G). pose proof (prime_ge_2 p P). pose proof (prime_ge_2 q Q).
  assert (P1 : 1 < p) by lia. assert (Q1 : 1 < q) by lia. assert (Q0 : 0 < q) by lia.
  destruct (dsa_sign_mem e s0 n c r s p q g x (g ^ x mod p) bin m GR C Lc Lr Ls Nrs Nr Ns H Ur Us P1 Q Lq DR Bm) as (k & ki & _ & Hk & K & W).
  cbv zeta in W. set (z := be_val (firstn (8 * used (ofZ q)) m)) in *. set (rz := (g ^ k mod p) mod q) in *. set (sz := ((x * rz + z) * ki) mod q) in *.
  eapply wp_mono; [exact W|]. intros rc s1 (-> & Hr & Hs & C1 & F1). split; [reflexivity|].
  assert (HK : holding s1 c [p; q; g; x; g ^ x mod p]) by (eapply holding_same; [|exact H]; cbn [length]; intros u Hu; apply F1; clear - Lc Lr Ls Nr Ns Hu; lia).
  eapply wp_mono; [exact (dsa_verify_mem e s1 n c r s p q g x (g ^ x mod p) rz sz m GR C1 Lc Lr Ls HK Hr Hs P1 Q1 Bm)|].
  intros rc s2 (E & U). split; [|exact U]. symmetry in E. assert (E0 : dsa_verify {| dsa_p := ofZ p; dsa_q := ofZ q; dsa_g := ofZ g; dsa_pvt := ofZ x; dsa_pub := ofZ (g ^ x mod p) |} (ofZ rz) (ofZ sz) m = Ok 0); [|rewrite E0 in E; apply ok_inj in E; exact E]. clear E. destruct (Z.eq_dec (Z.gcd sz q) 1) as [GS|GS].
  - destruct (dsa_verify_form p q g (ofZ x) (g ^ x mod p) m rz sz P1 Q1 Bm GS) as (w & Hw & Ww & V). fold z in V. rewrite V.
    assert (Br : 0 <= rz < q) by (apply Z.mod_pos_bound; exact Q0). rewrite (Z.abs_eq rz) by apply Br.
    assert (EQ := dsa_equation p q g x k ki z w DD Px Hk ltac:(apply be_val_bound; apply bytes_firstn; auto) K Hw Ww).
    fold rz in EQ. rewrite EQ, Z.eqb_refl. reflexivity.
  - apply dsa_verify_err; [exact Q0|exact GS].
Qed.

Lemma inverse_exists k t : 1 < t -> Z.gcd k t = 1 -> exists ki, 0 <= ki < t /\ (k * ki) mod t = 1.
Proof.
  intros Ht G. destruct (Z.gcd_bezout k t 1 G) as (u & v & E). exists (u mod t). split; [apply Z.mod_pos_bound; lia|].
  rewrite Z.mul_mod_idemp_r by lia. replace (k * u) with (1 + (- v) * t) by lia. rewrite Z.mod_add by lia. apply Z.mod_1_l. exact Ht.
Qed.
Theorem eg_sign_any e s0 n c r s p g y d pre bin rest m k : (forall i, grant e i = true) -> calm n s0 -> (c + 3 < n)%nat -> (r < n)%nat -> (s < n)%nat ->
  r <> s -> ~ (c <= r < c + 4)%nat -> ~ (c <= s < c + 4)%nat -> holding s0 c [p; g; y; d] -> usable s0 r -> usable s0 s ->
  2 < p -> bytes m -> Z.of_nat (length m) <= rsa_len p ->
  (forall b, In b pre -> exists k', drawn (p - 1) b k' /\ Z.gcd k' (p - 1) <> 1) -> (length pre < 1024)%nat ->
  drawn (p - 1) bin k -> 0 <= k -> Z.gcd k (p - 1) = 1 ->
  exists ki, 0 <= ki < p - 1 /\ (k * ki) mod (p - 1) = 1 /\
  wp (eg_sign2_m n c r s (pre ++ bin :: rest) m) e s0 (fun rc s' => rc = 0 /\ has s' r (ofZ (g ^ k mod p)) /\ has s' s (ofZ (((be_val m - d * (g ^ k mod p)) * ki) mod (p - 1))) /\
    calm n s' /\ (forall u, (u < n)%nat -> u <> r -> u <> s -> mem s' u = mem s0 u)).
Proof.
  intros GR C Lc Lr Ls Nrs Nr Ns H Ur Us Pp Bm Lm HP HI DK PK GK. destruct (inverse_exists k (p - 1) ltac:(lia) GK) as (ki & Bk & Ek). exists ki. split; [exact Bk|]. split; [exact Ek|].
  rewrite <- (mlen_len p) in Lm by lia. apply eg_sign_mem with (y := y); auto.
Qed.
Theorem eg_use e1 e2 s0 n c r s p g d pre bin rest m k : (forall i, grant e1 i = true) -> calm n s0 -> (c + 3 < n)%nat -> (r < n)%nat -> (s < n)%nat ->
  r <> s -> ~ (c <= r < c + 4)%nat -> ~ (c <= s < c + 4)%nat -> holding s0 c [p; g; g ^ d mod p; d] -> usable s0 r -> usable s0 s ->
  prime p -> 2 < p -> ~ (p | g) -> 0 <= d -> bytes m -> Z.of_nat (length m) <= rsa_len p ->
  (forall b, In b pre -> exists k', drawn (p - 1) b k' /\ Z.gcd k' (p - 1) <> 1) -> (length pre < 1024)%nat ->
  drawn (p - 1) bin k -> 0 <= k < p - 1 -> Z.gcd k (p - 1) = 1 ->
  wp (eg_sign2_m n c r s (pre ++ bin :: rest) m) e1 s0 (fun rc s1 => rc = 0 /\
    unless_refused (eg_verify2_m n c r s m) e2 s1 (returns e2 n (-1) 0 s1)).
Proof.
  intros GR C Lc Lr Ls Nrs Nr Ns H Ur Us Pr Pp Ng Pd Bm Lm HP HI DK PK GK.
  destruct (eg_sign_any e1 s0 n c r s p g _ d pre bin rest m k GR C Lc Lr Ls Nrs Nr Ns H Ur Us Pp Bm Lm HP HI DK ltac:(lia) GK) as (ki & Bk & Ek & W).
  eapply wp_mono; [exact W|]. intros rc s1 (-> & Hr & Hs & C1 & F1). split; [reflexivity|].
  assert (HK : holding s1 c [p; g; g ^ d mod p; d]) by (eapply holding_same; [|exact H]; cbn [length]; intros u Hu; apply F1; clear - Lc Lr Ls Nr Ns Hu; lia).
  pose proof (eg_verify_fair e2 s1 n c r s p g (g ^ d mod p) d _ _ m C1 Lc Lr Ls HK Hr Hs ltac:(lia) ltac:(apply Z.mod_pos_bound; lia) ltac:(apply Z.mod_pos_bound; lia) Bm) as V.
  rewrite (eg_equation p g d k ki (be_val m) Pr Ng Pd PK ltac:(apply be_val_bound; exact Bm) ltac:(rewrite Ek, Z.mod_1_l by lia; reflexivity)) in V.
  rewrite Z.eqb_refl in V. rewrite <- (mlen_len p) in Lm by lia. apply Z.leb_le in Lm. change (mlen p) with (count_bytes (ofZ p)) in Lm. rewrite Lm in V. exact V.
Qed.
