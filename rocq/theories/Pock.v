(** Primality certificates: the theorem of Pocklington in the form of Brillhart,
    Lehmer and Selfridge, where a known F above the cube root of N, a prime power or the
    product of two, divides N - 1, and a checker for them. *)
From Coq Require Import ZArith Znumtheory Zpow_facts Lia List Bool.
From Verif Require Import FastMul NumTh Fermat.
Import ListNotations.
Open Scope Z_scope.

Lemma prime_divisor n : 1 < n -> exists r, prime r /\ (r | n) /\ r <= n.
Proof.
  intro H. assert (Z0 : 0 <= n) by lia. revert n Z0 H. apply (Zlt_0_ind (fun z => 1 < z -> exists r, prime r /\ (r | z) /\ r <= z)).
  intros z IH Z0 Z1. destruct (prime_dec z) as [P|NP]. { exists z. split; [auto|split; [exists 1; lia|lia]]. }
  apply not_prime_divide in NP; auto. destruct NP as (u & U & V). destruct (IH u ltac:(lia) ltac:(lia)) as (r & R1 & R2 & R3).
  exists r. split; [auto|]. split; [eapply Z.divide_trans; eauto|lia].
Qed.

(** every prime divisor of N is 1 modulo q^e *)
Lemma pock_divisor N q e R a u k r : 1 < N -> prime q -> 1 <= e -> 0 < R -> N - 1 = q ^ e * R -> (a ^ (N - 1)) mod N = 1 ->
  u * (a ^ (q ^ (e - 1) * R) - 1) = 1 + k * N -> prime r -> (r | N) -> (q ^ e | r - 1).
Proof.
  intros HN Q He HR E A W P D. pose proof (prime_ge_2 q Q). pose proof (prime_ge_2 r P).
  assert (QE : q ^ e = q * q ^ (e - 1)). { rewrite <- Z.pow_succ_r by lia. f_equal. lia. }
  pose proof (Z.pow_pos_nonneg q (e - 1) ltac:(lia) ltac:(lia)).
  assert (A1 : a ^ (N - 1) mod r = 1).
  { transitivity (1 mod r); [|apply Z.mod_1_l; lia]. apply divide_mod_eq; [lia|]. eapply Z.divide_trans; [exact D|]. apply divide_mod_eq; [lia|]. rewrite A, Z.mod_1_l; lia. }
  assert (NB : ~ (r | a)).
  { intro V. assert (Q0 : a ^ (N - 1) mod r = 0); [|rewrite A1 in Q0; discriminate]. apply Zdivide_mod. eapply Z.divide_trans; [exact V|].
    exists (a ^ (N - 2)). replace (N - 1) with (Z.succ (N - 2)) by lia. rewrite Z.pow_succ_r by lia. ring. }
  assert (G := pow_gcd a r ltac:(lia) (S (Z.to_nat (r - 1))) (N - 1) (r - 1) ltac:(lia) ltac:(lia) ltac:(lia) A1 (fermat1 r a P NB)).
  set (g := Z.gcd (N - 1) (r - 1)) in *. destruct (Z.gcd_divide_l (N - 1) (r - 1)) as [h Hh]. fold g in Hh.
  assert (0 < g). { pose proof (Z.gcd_nonneg (N - 1) (r - 1)). fold g in H2. destruct (Z.eq_dec g 0) as [Z0|]; [|lia]. rewrite Z0, Z.mul_0_r in Hh. lia. }
  assert (0 < h) by (clear - Hh H2 HN; nia).
  destruct (Zdivide_dec q h) as [[h' Eh]|NQ].
  - exfalso. assert (S1 : q ^ (e - 1) * R = h' * g). { apply (Z.mul_reg_l _ _ q); [lia|]. rewrite Z.mul_assoc, <- QE, <- E, Hh, Eh. ring. }
    assert (0 < h') by (clear - Eh H3 H; nia).
    assert (T : a ^ (q ^ (e - 1) * R) mod r = 1).
    { assert (0 <= h') by (clear - H4; lia). assert (0 <= g) by (clear - H2; lia). assert (1 < r) by (clear - H0; lia). rewrite S1, Z.mul_comm, Z.pow_mul_r by assumption.
      transitivity (1 ^ h' mod r); [|rewrite Z.pow_1_l by assumption; apply Z.mod_1_l; assumption]. apply mod_pow; [assumption|clear - H0; lia|]. rewrite G, Z.mod_1_l by assumption. reflexivity. }
    assert (V : (r | a ^ (q ^ (e - 1) * R) - 1)). { apply divide_mod_eq; [clear - H0; lia|]. rewrite T, Z.mod_1_l by (clear - H0; lia). reflexivity. }
    assert (V1 : (r | 1)). { assert (W1 : u * (a ^ (q ^ (e - 1) * R) - 1) - k * N = 1) by (rewrite W; ring). rewrite <- W1. apply Z.divide_sub_r; apply Z.divide_mul_r; assumption. }
    apply Z.divide_1_r in V1. clear - V1 H0. lia.
  - eapply Z.divide_trans; [|apply (Z.gcd_divide_r (N - 1))]. fold g. apply (Gauss (q ^ e) h).
    + exists R. rewrite <- (Z.mul_comm (q ^ e)), <- E, Hh. ring.
    + apply rel_prime_sym. apply rel_prime_Zpower_r; [clear - He; lia|]. apply rel_prime_sym. apply prime_rel_prime; auto.
Qed.

Lemma not_square s d x : 0 <= s -> s * s < d < (s + 1) * (s + 1) -> x * x = d -> False.
Proof. intros. assert (x * x = Z.abs x * Z.abs x) by nia. assert (0 <= Z.abs x) by lia. set (y := Z.abs x) in *. clearbody y. assert (y <= s \/ s + 1 <= y) by lia. nia. Qed.

Lemma pock_core N F R s : 1 < N -> 0 < F -> 0 < R -> N - 1 = F * R -> (forall r, prime r -> (r | N) -> (F | r - 1)) -> N < F * F * F ->
  (let c1 := R mod F in let c2 := R / F in let d := c1 * c1 - 4 * c2 in c2 = 0 \/ d < 0 \/ 0 <= s /\ s * s < d < (s + 1) * (s + 1)) ->
  prime N.
Proof.
  intros HN H0 HR E A B C. destruct (prime_dec N) as [P|NP]; auto. exfalso.
  assert (exists r, prime r /\ (r | N) /\ r < N) as (r & P & D & L).
  { apply not_prime_divide in NP; auto. destruct NP as (x & X & V). destruct (prime_divisor x ltac:(lia)) as (r & R1 & R2 & R3). exists r. split; [auto|]. split; [eapply Z.divide_trans; eauto|lia]. }
  pose proof (prime_ge_2 r P). pose proof (A r P D) as [x X]. destruct D as [v V].
  clear A.
  assert (Dv : (F | v - 1)). { exists (R - x * v). assert (r = x * F + 1) by lia. subst r. nia. }
  destruct Dv as [y Y]. assert (1 < v) by (clear - L V H; nia). assert (X1 : 1 <= x) by (clear - X H H0; nia). assert (Y1 : 1 <= y) by (clear - Y H0 H1; nia).
  assert (RR : R = x * y * F + (x + y)). { apply (Z.mul_reg_l _ _ F); [lia|]. rewrite <- E. rewrite V. replace v with (y * F + 1) by lia. replace r with (x * F + 1) by lia. ring. }
  assert (FR : F * R < F * F * F) by (clear - E B; lia).
  assert (FF : 0 < F * F) by (clear - H0; nia).
  assert (XY : x * y < F). { apply (Z.mul_lt_mono_pos_l (F * F)); [exact FF|]. rewrite RR in FR. assert (0 < F * (x + y)) by (apply Z.mul_pos_pos; [exact H0|clear - X1 Y1; lia]). clear - FR H2. nia. }
  assert (XS : x + y < F).
  { assert (x + y <= x * y + 1) by nia. destruct (Z.eq_dec (x + y) F) as [EQ|]; [|lia]. exfalso. assert (x * y = F - 1) by lia. assert (RR2 : R = (F - 1) * F + F) by congruence. rewrite RR2 in FR. clear - FR. nia. }
  assert (M1 : R mod F = x + y). { rewrite RR, Z.add_comm, Z.mod_add, Z.mod_small by lia. reflexivity. }
  assert (M2 : R / F = x * y). { rewrite RR, Z.div_add_l, (Z.div_small (x + y)) by lia. ring. }
  rewrite M1, M2 in C. cbv zeta in C. assert (SQ : (x - y) * (x - y) = (x + y) * (x + y) - 4 * (x * y)) by ring.
  destruct C as [C|[C|[S0 C]]]; [nia| |]. { pose proof (Z.square_nonneg (x - y)). lia. }
  eapply (not_square s); eauto.
Qed.

Theorem pocklington N q e R a u k s : 1 < N -> prime q -> 1 <= e -> 0 < R -> N - 1 = q ^ e * R -> (a ^ (N - 1)) mod N = 1 ->
  u * (a ^ (q ^ (e - 1) * R) - 1) = 1 + k * N -> N < q ^ e * q ^ e * q ^ e ->
  (let c1 := R mod q ^ e in let c2 := R / q ^ e in let d := c1 * c1 - 4 * c2 in c2 = 0 \/ d < 0 \/ 0 <= s /\ s * s < d < (s + 1) * (s + 1)) ->
  prime N.
Proof.
  intros HN Q He HR E A W B C. pose proof (prime_ge_2 q Q). apply (pock_core N (q ^ e) R s); auto; [apply Z.pow_pos_nonneg; lia|].
  intros r P D. exact (pock_divisor N q e R a u k r HN Q He HR E A W P D).
Qed.

(** * Powers modulo N with given quotients *)
Lemma pow_xO a e : a ^ Z.pos (xO e) = a ^ Z.pos e * a ^ Z.pos e.
Proof. rewrite <- Z.pow_add_r by lia. f_equal. lia. Qed.
Lemma pow_xI a e : a ^ Z.pos (xI e) = a ^ Z.pos e * a ^ Z.pos e * a.
Proof. rewrite <- Z.pow_add_r, (Z.mul_comm _ a), <- Z.pow_succ_r by lia. f_equal. lia. Qed.
Section Power.
  Variable N : Z.
  Variable mN : Z -> Z.
  Hypothesis mN_ok : forall k, mN k = k * N.

  (** [a] small: one quotient for each bit of the exponent but the first *)
  Fixpoint pw (a : Z) (e : positive) (w : list Z) : Z * list Z :=
    match e with
    | xH => (a, w)
    | xO e => let '(x, w) := pw a e w in match w with [] => (x * x, []) | k :: w => (zmul x x - mN k, w) end
    | xI e => let '(x, w) := pw a e w in match w with [] => (x * x * a, []) | k :: w => (zmul x x * a - mN k, w) end
    end.
  (** [a] large: two quotients for a bit 1 *)
  Fixpoint pwb (a : Z) (e : positive) (w : list Z) : Z * list Z :=
    match e with
    | xH => (a, w)
    | xO e => let '(x, w) := pwb a e w in match w with [] => (x * x, []) | k :: w => (zmul x x - mN k, w) end
    | xI e => let '(x, w) := pwb a e w in match w with k :: l :: w => (zmul (zmul x x - mN k) a - mN l, w) | _ => (x * x * a, []) end
    end.
  Lemma pw_ok a e : forall w, (N | fst (pw a e w) - a ^ Z.pos e).
  Proof.
    induction e as [e IH|e IH|]; intro w; cbn [pw]; [| |change (a ^ 1) with (a ^ 1); rewrite Z.pow_1_r; exists 0; cbn; lia].
    - specialize (IH w). destruct (pw a e w) as [x l]. cbn [fst] in IH. destruct IH as [c C]. rewrite pow_xI. set (y := a ^ Z.pos e) in *. replace x with (c * N + y) by lia.
      destruct l as [|k l]; cbn [fst]; [exists (c * (c * N + 2 * y) * a); ring|]. rewrite ?zmul_ok, mN_ok. exists (c * (c * N + 2 * y) * a - k). ring.
    - specialize (IH w). destruct (pw a e w) as [x l]. cbn [fst] in IH. destruct IH as [c C]. rewrite pow_xO. set (y := a ^ Z.pos e) in *. replace x with (c * N + y) by lia.
      destruct l as [|k l]; cbn [fst]; [exists (c * (c * N + 2 * y)); ring|]. rewrite ?zmul_ok, mN_ok. exists (c * (c * N + 2 * y) - k). ring.
  Qed.
  Lemma pwb_ok a e : forall w, (N | fst (pwb a e w) - a ^ Z.pos e).
  Proof.
    induction e as [e IH|e IH|]; intro w; cbn [pwb]; [| |rewrite Z.pow_1_r; exists 0; cbn; lia].
    - specialize (IH w). destruct (pwb a e w) as [x l]. cbn [fst] in IH. destruct IH as [c C]. rewrite pow_xI. set (y := a ^ Z.pos e) in *. replace x with (c * N + y) by lia.
      destruct l as [|k [|k' l]]; cbn [fst]; [exists (c * (c * N + 2 * y) * a); ring|exists (c * (c * N + 2 * y) * a); ring|]. rewrite !zmul_ok, !mN_ok. exists (c * (c * N + 2 * y) * a - k * a - k'). ring.
    - specialize (IH w). destruct (pwb a e w) as [x l]. cbn [fst] in IH. destruct IH as [c C]. rewrite pow_xO. set (y := a ^ Z.pos e) in *. replace x with (c * N + y) by lia.
      destruct l as [|k l]; cbn [fst]; [exists (c * (c * N + 2 * y)); ring|]. rewrite ?zmul_ok, mN_ok. exists (c * (c * N + 2 * y) - k). ring.
  Qed.

  (** The certificate: q^e R = N - 1, the base a, quotients for
      b = a^(q^(e-1) R) and for b^q, the inverse u of b - 1 with its quotient k,
      and the root s. *)
  Definition check (q : positive) (e : Z) (R : positive) (a : Z) (w1 w2 : list Z) (u k s : Z) : bool :=
    let F := Z.pos q ^ e in
    let b := fst (pw a (Z.to_pos (Z.pos q ^ (e - 1) * Z.pos R)) w1) in
    let c2 := Z.pos R / F in
    let c1 := Z.pos R - c2 * F in
    let d := c1 * c1 - 4 * c2 in
    (1 <? N) && (1 <=? e) && (N - 1 =? F * Z.pos R) && (N <? F * F * F)
    && (fst (pwb b q w2) =? 1) && (u * (b - 1) - mN k =? 1)
    && ((c2 =? 0) || (d <? 0) || ((0 <=? s) && (s * s <? d) && (d <? (s + 1) * (s + 1)))).
  Theorem check_ok q e R a w1 w2 u k s : check q e R a w1 w2 u k s = true -> prime (Z.pos q) -> prime N.
  Proof.
    unfold check. cbv zeta. intros H Q. rewrite !andb_true_iff in H. destruct H as ((((((H1 & H2) & H3) & H4) & H5) & H6) & H7).
    apply Z.ltb_lt in H1, H4. apply Z.leb_le in H2. apply Z.eqb_eq in H3, H5, H6. rewrite mN_ok in H6.
    set (F := Z.pos q ^ e) in *. set (E := Z.pos q ^ (e - 1) * Z.pos R) in *.
    pose proof (Z.pow_pos_nonneg (Z.pos q) (e - 1) ltac:(lia) ltac:(lia)).
    assert (PE : 0 < E) by (unfold E; lia).
    assert (FE : F = Z.pos q * Z.pos q ^ (e - 1)). { unfold F. rewrite <- Z.pow_succ_r by lia. f_equal. lia. }
    pose proof (pw_ok a (Z.to_pos E) w1) as B1. rewrite Z2Pos.id in B1 by lia. set (b := fst (pw a (Z.to_pos E) w1)) in *.
    pose proof (pwb_ok b q w2) as B2. rewrite H5 in B2. destruct B1 as [x1 B1].
    assert (AN : a ^ (N - 1) mod N = 1).
    { transitivity (1 mod N); [|apply Z.mod_1_l; lia]. replace (N - 1) with (E * Z.pos q) by (rewrite H3, FE; unfold E; ring). rewrite Z.pow_mul_r by lia.
      transitivity (b ^ Z.pos q mod N). { apply mod_pow; [lia|lia|]. symmetry. apply divide_mod_eq; [lia|]. exists x1. exact B1. }
      symmetry. apply divide_mod_eq; [lia|]. exact B2. }
    refine (pocklington N (Z.pos q) e (Z.pos R) a u (k - u * x1) s H1 Q H2 (Pos2Z.is_pos R) H3 AN _ H4 _).
    - fold E. assert (AE : a ^ E = b - x1 * N) by (rewrite <- B1; ring). rewrite AE. clear - H6. lia.
    - cbv zeta. fold F. assert (F0 : F <> 0). { rewrite FE. clear - H. intro Z0. apply Z.mul_eq_0 in Z0. destruct Z0; lia. } rewrite Z.mod_eq, (Z.mul_comm F) by exact F0. rewrite !orb_true_iff, !andb_true_iff in H7. destruct H7 as [[H7|H7]|((H7 & H8) & H9)].
      + left. apply Z.eqb_eq in H7. exact H7.
      + right. left. apply Z.ltb_lt in H7. exact H7.
      + right. right. apply Z.leb_le in H7. apply Z.ltb_lt in H8, H9. split; [exact H7|]. split; [exact H8|exact H9].
  Qed.

  (** Two prime powers: F = q1^e1 q2^e2. *)
  Definition part (q : positive) (e : Z) (R : positive) (a : Z) (w1 w2 : list Z) (u k : Z) : bool :=
    let b := fst (pw a (Z.to_pos (Z.pos q ^ (e - 1) * Z.pos R)) w1) in
    (1 <=? e) && (N - 1 =? Z.pos q ^ e * Z.pos R) && (fst (pwb b q w2) =? 1) && (u * (b - 1) - mN k =? 1).
  Lemma part_ok q e R a w1 w2 u k : 1 < N -> part q e R a w1 w2 u k = true -> prime (Z.pos q) -> 0 < Z.pos q ^ e /\ forall r, prime r -> (r | N) -> (Z.pos q ^ e | r - 1).
  Proof.
    intro H1. unfold part. cbv zeta. intros H Q. rewrite !andb_true_iff in H. destruct H as (((H2 & H3) & H5) & H6).
    apply Z.leb_le in H2. apply Z.eqb_eq in H3, H5, H6. rewrite mN_ok in H6.
    set (F := Z.pos q ^ e) in *. set (E := Z.pos q ^ (e - 1) * Z.pos R) in *.
    pose proof (Z.pow_pos_nonneg (Z.pos q) (e - 1) ltac:(lia) ltac:(lia)).
    assert (PE : 0 < E) by (unfold E; lia).
    assert (FE : F = Z.pos q * Z.pos q ^ (e - 1)). { unfold F. rewrite <- Z.pow_succ_r by lia. f_equal. lia. }
    pose proof (pw_ok a (Z.to_pos E) w1) as B1. rewrite Z2Pos.id in B1 by lia. set (b := fst (pw a (Z.to_pos E) w1)) in *.
    pose proof (pwb_ok b q w2) as B2. rewrite H5 in B2. destruct B1 as [x1 B1].
    assert (AN : a ^ (N - 1) mod N = 1).
    { transitivity (1 mod N); [|apply Z.mod_1_l; lia]. replace (N - 1) with (E * Z.pos q) by (rewrite H3, FE; unfold E; ring). rewrite Z.pow_mul_r by lia.
      transitivity (b ^ Z.pos q mod N). { apply mod_pow; [lia|lia|]. symmetry. apply divide_mod_eq; [lia|]. exists x1. exact B1. }
      symmetry. apply divide_mod_eq; [lia|]. exact B2. }
    split; [rewrite FE; apply Z.mul_pos_pos; [reflexivity|exact H]|]. intros r P D.
    refine (pock_divisor N (Z.pos q) e (Z.pos R) a u (k - u * x1) r H1 Q H2 (Pos2Z.is_pos R) H3 AN _ P D).
    fold E. assert (AE : a ^ E = b - x1 * N) by (rewrite <- B1; ring). rewrite AE. clear - H6. lia.
  Qed.
  Definition check2 (q1 : positive) (e1 : Z) (R1 : positive) (q2 : positive) (e2 : Z) (R2 : positive) (R : positive)
      (a1 : Z) (w11 w12 : list Z) (u1 k1 a2 : Z) (w21 w22 : list Z) (u2 k2 s : Z) : bool :=
    let F := Z.pos q1 ^ e1 * Z.pos q2 ^ e2 in
    let c2 := Z.pos R / F in
    let c1 := Z.pos R - c2 * F in
    let d := c1 * c1 - 4 * c2 in
    (1 <? N) && negb (q1 =? q2)%positive && part q1 e1 R1 a1 w11 w12 u1 k1 && part q2 e2 R2 a2 w21 w22 u2 k2
    && (N - 1 =? F * Z.pos R) && (N <? F * F * F)
    && ((c2 =? 0) || (d <? 0) || ((0 <=? s) && (s * s <? d) && (d <? (s + 1) * (s + 1)))).
  Theorem check2_ok q1 e1 R1 q2 e2 R2 R a1 w11 w12 u1 k1 a2 w21 w22 u2 k2 s :
    check2 q1 e1 R1 q2 e2 R2 R a1 w11 w12 u1 k1 a2 w21 w22 u2 k2 s = true -> prime (Z.pos q1) -> prime (Z.pos q2) -> prime N.
  Proof.
    unfold check2. cbv zeta. intros H P1 P2. rewrite !andb_true_iff in H. destruct H as ((((((H1 & H2) & H3) & H4) & H5) & H6) & H7).
    apply Z.ltb_lt in H1, H6. apply Z.eqb_eq in H5. apply negb_true_iff, Pos.eqb_neq in H2.
    assert (E1 : 0 <= e1 /\ 0 <= e2). { unfold part in H3, H4. cbv zeta in H3, H4. rewrite !andb_true_iff in H3, H4. destruct H3 as (((H3 & _) & _) & _), H4 as (((H4 & _) & _) & _). apply Z.leb_le in H3, H4. clear - H3 H4. lia. } destruct E1 as [E1 E2].
    destruct (part_ok _ _ _ _ _ _ _ _ H1 H3 P1) as [F1 D1]. destruct (part_ok _ _ _ _ _ _ _ _ H1 H4 P2) as [F2 D2]. clear H3 H4.
    assert (CP : rel_prime (Z.pos q1 ^ e1) (Z.pos q2 ^ e2)).
    { apply rel_prime_Zpower; [exact E1|exact E2|]. apply prime_rel_prime; [exact P1|]. intro V. apply prime_div_prime in V; auto. injection V as V. contradiction. }
    set (A := Z.pos q1 ^ e1) in *. set (B := Z.pos q2 ^ e2) in *. clearbody A B.
    apply (pock_core N (A * B) (Z.pos R) s H1); [apply Z.mul_pos_pos; assumption|apply Pos2Z.is_pos|exact H5| |exact H6|].
    - intros r P D. destruct (D1 r P D) as [x X]. rewrite X. rewrite Z.mul_comm. apply Z.mul_divide_mono_r. apply (Gauss _ A); [rewrite Z.mul_comm, <- X; apply (D2 r P D)|apply rel_prime_sym; exact CP].
    - cbv zeta. assert (F0 : A * B <> 0) by (clear - F1 F2; nia). rewrite Z.mod_eq, (Z.mul_comm (A * B)) by exact F0. rewrite !orb_true_iff, !andb_true_iff in H7. destruct H7 as [[H7|H7]|((H7 & H8) & H9)].
      + left. apply Z.eqb_eq in H7. exact H7.
      + right. left. apply Z.ltb_lt in H7. exact H7.
      + right. right. apply Z.leb_le in H7. apply Z.ltb_lt in H8, H9. split; [exact H7|]. split; [exact H8|exact H9].
  Qed.
End Power.

(** Small primes by trial division: no i with 1 < i and i * i <= n divides n. *)
Fixpoint trial (f : nat) (i n : Z) : bool :=
  match f with
  | O => false
  | S f => if n <? i * i then true else negb (n mod i =? 0) && trial f (i + 1) n
  end.
Lemma trial_ok n : 1 < n -> forall f i, 1 < i -> (forall j, 1 < j < i -> ~ (j | n)) -> trial f i n = true -> prime n.
Proof.
  intros Hn. induction f as [|f IH]; intros i Hi S T; cbn [trial] in T; [discriminate|].
  destruct (Z.ltb_spec n (i * i)).
  - apply prime_by_divisors; auto. intros r R D. pose proof (prime_ge_2 r R). destruct (Z_lt_le_dec r i) as [L|L]; [exfalso; apply (S r); auto; lia|nia].
  - apply andb_true_iff in T. destruct T as [T1 T2]. apply (IH (i + 1)); auto; [lia|]. intros j Hj D. destruct (Z.eq_dec j i) as [->|]; [|apply (S j); auto; lia].
    apply negb_true_iff, Z.eqb_neq in T1. apply T1. apply Zdivide_mod. exact D.
Qed.
Lemma trial_prime n f : 1 < n -> trial f 2 n = true -> prime n.
Proof. intros H T. apply (trial_ok n H f 2); auto; [lia|]. intros; lia. Qed.
