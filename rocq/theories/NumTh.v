(** Modular exponent arithmetic, the RSA identity and Proth's theorem. *)
From Coq Require Import Znumtheory.
From Verif Require Import Base Fermat.

Ltac Zify.zify_post_hook ::= idtac.

Lemma mod_mul a b c d m : 0 < m -> a mod m = c mod m -> b mod m = d mod m -> (a * b) mod m = (c * d) mod m.
Proof. intros. rewrite (Z.mul_mod a b), (Z.mul_mod c d) by lia. congruence. Qed.
Lemma mod_add a b c d m : 0 < m -> a mod m = c mod m -> b mod m = d mod m -> (a + b) mod m = (c + d) mod m.
Proof. intros. rewrite (Z.add_mod a b), (Z.add_mod c d) by lia. congruence. Qed.
Lemma mod_sub a b c d m : 0 < m -> a mod m = c mod m -> b mod m = d mod m -> (a - b) mod m = (c - d) mod m.
Proof. intros. rewrite (Zminus_mod a b), (Zminus_mod c d). congruence. Qed.
Lemma mod_pow a b n m : 0 <= n -> 0 < m -> a mod m = b mod m -> a ^ n mod m = b ^ n mod m.
Proof.
  intros Hn Hm E. revert n Hn. apply natlike_ind; [reflexivity|]. intros n Hn IH.
  rewrite !Z.pow_succ_r by lia. apply mod_mul; auto.
Qed.
Lemma mod_modl a m : 0 < m -> (a mod m) mod m = a mod m.
Proof. intro. apply Z.mod_mod. lia. Qed.

Lemma divide_mod_eq a b m : 0 < m -> (a mod m = b mod m <-> (m | a - b)).
Proof.
  intro Hm. split.
  - intro E. exists (a / m - b / m). pose proof (Z.div_mod a m ltac:(lia)). pose proof (Z.div_mod b m ltac:(lia)). lia.
  - intros [k E]. replace a with (b + k * m) by lia. apply Z.mod_add. lia.
Qed.

(** Exponents count modulo any period. *)
Lemma pow_period g q m a b : 1 < m -> 0 < q -> g ^ q mod m = 1 -> 0 <= a -> 0 <= b -> a mod q = b mod q -> g ^ a mod m = g ^ b mod m.
Proof.
  intros Hm Hq E.
  assert (K : forall a, 0 <= a -> g ^ a mod m = g ^ (a mod q) mod m).
  { intros c Hc. rewrite (Z.div_mod c q) at 1 by lia. pose proof (Z.mod_pos_bound c q Hq). pose proof (Z.div_pos c q Hc Hq).
    rewrite Z.pow_add_r by (try apply Z.mul_nonneg_nonneg; lia). rewrite Z.pow_mul_r by lia.
    rewrite <- (Z.mul_1_l (g ^ (c mod q))) at 2. apply mod_mul; [lia| |reflexivity].
    rewrite (mod_pow (g ^ q) 1 (c / q) m) by (try lia; rewrite E, Z.mod_1_l; lia). rewrite Z.pow_1_l by lia. reflexivity. }
  intros Ha Hb C. rewrite (K a Ha), (K b Hb), C. reflexivity.
Qed.

(** m^(e*d) = m modulo a prime p, when p-1 divides e*d - 1. *)
Lemma rsa_prime p m ed : prime p -> 1 <= ed -> (p - 1 | ed - 1) -> m ^ ed mod p = m mod p.
Proof.
  intros P He [k D]. pose proof (prime_ge_2 p P).
  replace ed with (Z.succ (ed - 1)) by lia. rewrite Z.pow_succ_r by lia.
  destruct (Zdivide_dec p m) as [M|M].
  - assert (E : m mod p = 0) by (apply Zdivide_mod; auto). rewrite Z.mul_mod, E, Z.mul_0_l, Z.mod_0_l by lia. reflexivity.
  - assert (0 <= k) by nia. rewrite D, (Z.mul_comm k), Z.pow_mul_r by lia.
    rewrite <- (Z.mul_1_r m) at 3. apply mod_mul; [lia|reflexivity|].
    rewrite (mod_pow _ 1 k p) by (try lia; rewrite (fermat1 p m P M), Z.mod_1_l; lia). rewrite Z.pow_1_l by lia. reflexivity.
Qed.

Lemma coprime_divide a b c : Z.gcd a b = 1 -> (a | c) -> (b | c) -> (a * b | c).
Proof.
  intros G [x X] D. subst c. rewrite Z.mul_comm in D. apply Z.gauss in D; [|rewrite Z.gcd_comm; auto].
  destruct D as [y Y]. exists y. subst x. ring.
Qed.

Theorem rsa_identity p q e d m : prime p -> prime q -> p <> q -> 0 < e -> 0 < d -> (Z.lcm (p - 1) (q - 1) | e * d - 1) ->
  (m ^ e) ^ d mod (p * q) = m mod (p * q).
Proof.
  intros P Q N He Hd D. pose proof (prime_ge_2 p P). pose proof (prime_ge_2 q Q). rewrite <- Z.pow_mul_r by lia.
  assert (H1 : 1 <= e * d) by nia.
  apply divide_mod_eq; [nia|]. apply coprime_divide.
  - pose proof (Z.gcd_nonneg p q). pose proof (Z.gcd_divide_l p q) as A. pose proof (Z.gcd_divide_r p q) as B'.
    set (g := Z.gcd p q) in *. clearbody g. apply prime_divisors in A; auto. apply prime_divisors in B'; auto. lia.
  - apply divide_mod_eq; [lia|]. apply rsa_prime; auto. eapply Z.divide_trans; [apply Z.divide_lcm_l|exact D].
  - apply divide_mod_eq; [lia|]. apply rsa_prime; auto. eapply Z.divide_trans; [apply Z.divide_lcm_r|exact D].
Qed.

(** If a^m = a^n = 1 then a^(gcd m n) = 1. *)
Lemma pow_gcd a r : 1 < r -> forall f m n, 0 <= m -> 0 <= n -> (Z.to_nat n < f)%nat -> a ^ m mod r = 1 -> a ^ n mod r = 1 -> a ^ Z.gcd m n mod r = 1.
Proof.
  intros Hr. induction f as [|f IH]; intros m n Hm Hn F A N; [lia|].
  destruct (Z.eq_dec n 0) as [->|Hz]; [rewrite Z.gcd_0_r, Z.abs_eq by lia; exact A|].
  pose proof (Z.mod_pos_bound m n ltac:(lia)).
  rewrite (Z.gcd_comm m n), <- (Z.gcd_mod m n) by lia. rewrite (Z.gcd_comm (m mod n) n). refine (IH n (m mod n) Hn _ _ N _); [clear - H; lia|clear - H F; lia|].
  rewrite <- A. refine (pow_period a n r (m mod n) m Hr _ N _ Hm _); [clear - H; lia|clear - H; lia|]. apply mod_modl. clear - H; lia.
Qed.

Lemma divide_pow2 k : 0 <= k -> forall g, 0 <= g -> (g | 2 ^ k) -> exists j, 0 <= j <= k /\ g = 2 ^ j.
Proof.
  revert k. apply (natlike_ind (fun k => forall g, 0 <= g -> (g | 2 ^ k) -> exists j, 0 <= j <= k /\ g = 2 ^ j)).
  - intros g Hg D. exists 0. split; [lia|]. apply Z.divide_1_r in D. rewrite Z.pow_0_r. lia.
  - intros k Hk IH g Hg D. rewrite Z.pow_succ_r in D by lia. destruct (Zdivide_dec 2 g) as [[h E]|N].
    + subst g. destruct D as [x X]. destruct (IH h ltac:(lia)) as (j & Hj & Ej). { exists x. lia. }
      exists (j + 1). split; [lia|]. rewrite Z.pow_add_r, Ej by lia. lia.
    + apply Z.gauss in D.
      * destruct (IH g Hg D) as (j & Hj & E). exists j. split; [lia|auto].
      * apply Zgcd_1_rel_prime, rel_prime_sym, prime_rel_prime; [apply prime_2|exact N].
Qed.

(** Proth: h*2^k+1 with h < 2^k is prime if some a has a^((N-1)/2) = -1. *)
Lemma prime_by_divisors n : 1 < n -> (forall r, prime r -> (r | n) -> n < r * r) -> prime n.
Proof.
  intros Hn D. destruct (prime_dec n) as [P|NP]; auto. exfalso.
  apply not_prime_divide in NP; auto. destruct NP as (x & [X1 X2] & [y Y]).
  assert (Hy : 1 < y < n) by nia.
  assert (W : forall z, 1 < z -> exists r, prime r /\ (r | z) /\ r <= z).
  { intros z. assert (Hz : 0 <= z \/ z < 0) by lia. intro. destruct Hz as [Hz|]; [|lia]. revert z Hz H. apply (Zlt_0_ind (fun z => 1 < z -> exists r, prime r /\ (r | z) /\ r <= z)).
    intros z IH Z0 Z1. destruct (prime_dec z) as [P|NP]. { exists z. split; [auto|split; [exists 1; lia|lia]]. }
    apply not_prime_divide in NP; auto. destruct NP as (u & U & V). destruct (IH u ltac:(lia) ltac:(lia)) as (r & R1 & R2 & R3).
    exists r. split; [auto|]. split; [eapply Z.divide_trans; eauto|lia]. }
  destruct (Z_le_gt_dec x y).
  - destruct (W x X1) as (r & R1 & R2 & R3). pose proof (prime_ge_2 r R1).
    assert (n < r * r). { apply D; auto. eapply Z.divide_trans; [exact R2|]. exists y. exact Y. } nia.
  - destruct (W y ltac:(lia)) as (r & R1 & R2 & R3). pose proof (prime_ge_2 r R1).
    assert (n < r * r). { apply D; auto. eapply Z.divide_trans; [exact R2|]. exists x. lia. } nia.
Qed.

Theorem proth n h k a : 0 < k -> 0 < h <= 2 ^ k -> n = h * 2 ^ k + 1 -> (a ^ (h * 2 ^ (k - 1))) mod n = n - 1 -> prime n.
Proof.
  intros Hk Hh E A. assert (K : 2 ^ k = 2 * 2 ^ (k - 1)) by (rewrite <- Z.pow_succ_r by lia; f_equal; lia).
  pose proof (Z.pow_pos_nonneg 2 (k - 1) ltac:(lia) ltac:(lia)). apply prime_by_divisors; [nia|].
  intros r R D. pose proof (prime_ge_2 r R) as R2.
  set (b := a ^ h). assert (B1 : b ^ 2 ^ (k - 1) mod r = (-1) mod r).
  { unfold b. rewrite <- Z.pow_mul_r by lia. apply divide_mod_eq; [lia|]. eapply Z.divide_trans; [exact D|]. apply divide_mod_eq; [lia|].
    rewrite A, <- (Z.mod_add (-1) 1 n) by nia. symmetry. replace (-1 + 1 * n) with (n - 1) by ring. apply Z.mod_small. nia. }
  assert (B2 : b ^ 2 ^ k mod r = 1).
  { rewrite K, Z.mul_comm, Z.pow_mul_r by lia. rewrite (mod_pow _ (-1) 2 r) by (auto; lia). apply Z.mod_small. lia. }
  assert (ODD : r <> 2).
  { intro. subst r. destruct D as [x X]. assert (2 * (x - h * 2 ^ (k - 1)) = 1) by lia. lia. }
  assert (NB : ~ (r | b)).
  { intro Q. assert (Q0 : b ^ 2 ^ k mod r = 0); [|rewrite B2 in Q0; discriminate]. apply Zdivide_mod. eapply Z.divide_trans; [exact Q|].
    exists (b ^ (2 ^ k - 1)). replace (2 ^ k) with (Z.succ (2 ^ k - 1)) at 1 by lia. rewrite Z.pow_succ_r by (clear - K H; lia). ring. }
  assert (G := pow_gcd b r ltac:(lia) (S (Z.to_nat (r - 1))) (2 ^ k) (r - 1) ltac:(lia) ltac:(lia) ltac:(lia) B2 (fermat1 r b R NB)).
  destruct (divide_pow2 k ltac:(lia) (Z.gcd (2 ^ k) (r - 1)) (Z.gcd_nonneg _ _) (Z.gcd_divide_l _ _)) as (j & Hj & Ej).
  destruct (Z.eq_dec j k) as [->|NJ].
  - assert (V : (2 ^ k | r - 1)) by (rewrite <- Ej; apply Z.gcd_divide_r). clear - V E Hh R2 Hk. pose proof (Z.pow_pos_nonneg 2 k ltac:(lia) ltac:(lia)). set (P := 2 ^ k) in *. clearbody P.
    destruct V as [x X]. assert (1 <= x) by nia. assert (P + 1 <= r) by nia. assert (h * P <= P * P) by nia. assert ((P + 1) * (P + 1) <= r * r) by nia. lia.
  - exfalso. rewrite Ej in G. assert (b ^ 2 ^ (k - 1) mod r = 1).
    { clear - G Hj NJ R2. replace (k - 1) with (j + (k - 1 - j)) by lia. rewrite Z.pow_add_r, Z.pow_mul_r by (try apply Z.pow_nonneg; lia).
      rewrite (mod_pow _ 1 _ r); [rewrite Z.pow_1_l by (apply Z.pow_nonneg; lia); apply Z.mod_1_l; lia|apply Z.pow_nonneg; lia|lia|rewrite G, Z.mod_1_l; lia]. }
    rewrite B1 in H0. clear - H0 R2 ODD. replace (-1) with (r - 1 + (-1) * r) in H0 by lia. rewrite Z.mod_add, Z.mod_small in H0 by lia. lia.
Qed.
