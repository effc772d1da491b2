(** The Miller-Rabin bound: an odd composite number that 3 does not divide has
    at most (n - 1) / 4 bases that pass. *)
From Coq Require Import Znumtheory.
From Verif Require Import Base Fermat NumTh MpiTextSpec.

(** *** Congruences as divisibility *)
Definition cg (n a b : Z) : Prop := (n | a - b).

Lemma cg_refl n a : cg n a a.
Proof. unfold cg. rewrite Z.sub_diag. apply Z.divide_0_r. Qed.
Lemma cg_sym n a b : cg n a b -> cg n b a.
Proof. intros [k H]. exists (- k). lia. Qed.
Lemma cg_trans n a b c : cg n a b -> cg n b c -> cg n a c.
Proof. intros [k H] [k' H']. exists (k + k'). lia. Qed.
Lemma cg_mul n a b c d : cg n a b -> cg n c d -> cg n (a * c) (b * d).
Proof.
  intros [k H] [k' H']. exists (k * c + b * k'). replace (a * c - b * d) with ((a - b) * c + b * (c - d)) by ring.
  rewrite H, H'. ring.
Qed.
Lemma cg_pow n a b k : 0 <= k -> cg n a b -> cg n (a ^ k) (b ^ k).
Proof.
  intros Hk H. revert k Hk. apply natlike_ind; [apply cg_refl|]. intros k Hk IH. rewrite !Z.pow_succ_r by lia. apply cg_mul; auto.
Qed.
Lemma cg_sub_mod n d a b : (d | n) -> cg n a b -> cg d a b.
Proof. intros D H. unfold cg in *. eapply Z.divide_trans; eauto. Qed.
Lemma cg_mod n a b : 0 < n -> a mod n = b mod n <-> cg n a b.
Proof. apply divide_mod_eq. Qed.
Lemma cg_small n a b : 0 <= a < n -> 0 <= b < n -> cg n a b -> a = b.
Proof. intros Ha Hb H. apply cg_mod in H; [|lia]. rewrite !Z.mod_small in H; auto. Qed.
Lemma cg_modl n a : 0 < n -> cg n (a mod n) a.
Proof. intro H. apply cg_mod; auto. apply mod_modl; auto. Qed.
Lemma cg_coprime n m a b : Z.gcd n m = 1 -> cg n a b -> cg m a b -> cg (n * m) a b.
Proof. intros. apply coprime_divide; auto. Qed.
Lemma cg_pm n a b : cg n a b -> (cg n a 1 \/ cg n a (-1)) -> cg n b 1 \/ cg n b (-1).
Proof. intros H [E|E]; [left|right]; eapply cg_trans; [apply cg_sym| |apply cg_sym|]; eauto. Qed.

Lemma one_pow k : 0 <= k -> 1 ^ k = 1. Proof. apply Z.pow_1_l. Qed.
Lemma cg_pow1 n a k : 0 <= k -> cg n a 1 -> cg n (a ^ k) 1.
Proof. intros Hk H. rewrite <- (one_pow k) by auto. apply cg_pow; auto. Qed.
Lemma pm_sq n a : cg n a 1 \/ cg n a (-1) -> cg n (a * a) 1.
Proof. intros [H|H]; [apply (cg_mul n a 1 a 1)|apply (cg_mul n a (-1) a (-1))]; auto. Qed.
Lemma sq_pow_even n a k : 0 <= k -> cg n (a * a) 1 -> cg n (a ^ (2 * k)) 1.
Proof.
  intros Hk H. rewrite Z.pow_mul_r by lia. rewrite Z.pow_2_r. rewrite <- (one_pow k) by auto. apply cg_pow; auto.
Qed.

(** *** Units *)
Definition unit (n w : Z) : Prop := exists w', cg n (w * w') 1.
Lemma unit_pow n w k : 0 < k -> cg n (w ^ k) 1 -> unit n w.
Proof. intros Hk H. exists (w ^ (k - 1)). rewrite <- Z.pow_succ_r by lia. replace (Z.succ (k - 1)) with k by lia. auto. Qed.
Lemma unit_mul n a b : unit n a -> unit n b -> unit n (a * b).
Proof.
  intros [a' A] [b' B]. exists (a' * b'). replace (a * b * (a' * b')) with ((a * a') * (b * b')) by ring.
  apply (cg_mul n _ 1 _ 1); auto.
Qed.
Lemma unit_cancel n w x y : unit n w -> cg n (w * x) (w * y) -> cg n x y.
Proof.
  intros [w' W] H. assert (E : forall z, cg n (w' * (w * z)) z).
  { intro z. replace (w' * (w * z)) with ((w * w') * z) by ring. replace z with (1 * z) at 2 by ring. apply cg_mul; [auto|apply cg_refl]. }
  eapply cg_trans; [apply cg_sym, E|]. eapply cg_trans; [|apply E]. apply cg_mul; [apply cg_refl|auto].
Qed.
Lemma unit_nz n w : 1 < n -> unit n w -> ~ cg n w 0.
Proof.
  intros Hn [w' W] H. assert (K : cg n 0 1).
  { eapply cg_trans; [|exact W]. apply cg_sym. replace 0 with (0 * w') by ring. apply cg_mul; [auto|apply cg_refl]. }
  apply cg_small in K; lia.
Qed.

(** *** Counting by disjoint translates *)
Definition translate (n w : Z) (l : list Z) : list Z := map (fun x => w * x mod n) l.

Lemma NoDup_app {A} (a b : list A) : NoDup a -> NoDup b -> (forall x, In x a -> In x b -> False) -> NoDup (a ++ b).
Proof.
  intros Ha Hb D. induction Ha as [|x a N Ha IH]; [auto|]. cbn. constructor.
  - rewrite in_app_iff. intros [H|H]; [auto|]. apply (D x); [left|]; auto.
  - apply IH. intros y Hy. apply D. right; auto.
Qed.

Lemma translates_nodup n l : 1 < n -> NoDup l -> (forall x, In x l -> 0 <= x < n) -> forall ws,
  (forall w, In w ws -> unit n w) ->
  ForallOrdPairs (fun w w' => forall x y, In x l -> In y l -> ~ cg n (w * x) (w' * y)) ws ->
  NoDup (concat (map (fun w => translate n w l) ws)).
Proof.
  intros Hn N R. induction ws as [|w ws IH]; intros U P; cbn; [constructor|]. inversion P as [|? ? P1 P2]; subst. apply NoDup_app.
  - apply NoDup_map_in; auto. intros x y Hx Hy E. apply cg_mod in E; [|lia]. apply unit_cancel in E; [|apply U; left; auto].
    apply (cg_small n); auto.
  - apply IH; auto. intros; apply U; right; auto.
  - intros z Hz Hz'. apply in_map_iff in Hz as (x & Ex & Hx). apply in_concat in Hz' as (l' & Hl & Hz').
    apply in_map_iff in Hl as (w' & <- & Hw). apply in_map_iff in Hz' as (y & Ey & Hy).
    rewrite Forall_forall in P1. apply (P1 w' Hw x y Hx Hy). apply cg_mod; lia.
Qed.

Lemma concat_same_length {A} k (ls : list (list A)) : (forall l, In l ls -> length l = k) -> length (concat ls) = (length ls * k)%nat.
Proof.
  induction ls as [|l ls IH]; intros H; [reflexivity|]. cbn. rewrite app_length, IH, (H l) by (try (left; reflexivity); intros; apply H; right; auto). reflexivity.
Qed.

Lemma translates_bound n l ws : 1 < n -> NoDup l -> (forall x, In x l -> 0 <= x < n /\ unit n x) ->
  (forall w, In w ws -> unit n w) ->
  ForallOrdPairs (fun w w' => forall x y, In x l -> In y l -> ~ cg n (w * x) (w' * y)) ws ->
  Z.of_nat (length ws) * Z.of_nat (length l) <= n - 1.
Proof.
  intros Hn N R U P. set (big := concat (map (fun w => translate n w l) ws)).
  assert (ND : NoDup big) by (apply translates_nodup; auto; intros; apply R; auto).
  assert (I : incl big (residues n)).
  { intros z Hz. apply in_concat in Hz as (l' & Hl & Hz). apply in_map_iff in Hl as (w & <- & Hw). apply in_map_iff in Hz as (x & <- & Hx).
    apply residues_in. pose proof (Z.mod_pos_bound (w * x) n ltac:(lia)).
    assert (w * x mod n <> 0); [|lia]. intro E. apply (unit_nz n (w * x)); auto.
    - apply unit_mul; [apply U; auto|apply R; auto].
    - apply cg_mod; [lia|]. rewrite E, Z.mod_0_l; lia. }
  pose proof (NoDup_incl_length ND I) as L. rewrite residues_length in L.
  unfold big in L. rewrite (concat_same_length (length l)) in L.
  - rewrite map_length in L. lia.
  - intros l' Hl. apply in_map_iff in Hl as (w & <- & Hw). apply map_length.
Qed.

(** *** Bases that pass *)
(** [2m] divides n - 1, [v]^m = -1, and every base of the list has x^m = 1 or -1. *)
Lemma common_exponent n t u l : 2 < n -> 0 < t -> Z.odd u = true -> 0 < u ->
  (forall x, In x l -> cg n (x ^ u) 1 \/ exists j, 0 <= j < t /\ cg n (x ^ (2 ^ j * u)) (-1)) ->
  exists j v, 0 <= j < t /\ cg n (v ^ (2 ^ j * u)) (-1) /\ forall x, In x l -> cg n (x ^ (2 ^ j * u)) 1 \/ cg n (x ^ (2 ^ j * u)) (-1).
Proof.
  intros Hn Ht Ou Hu. induction l as [|x l IH]; intros H.
  - exists 0, (-1). split; [lia|]. split; [|intros x []]. rewrite Z.pow_0_r, Z.mul_1_l.
    replace ((-1) ^ u) with (-1); [apply cg_refl|]. apply Zodd_bool_iff in Ou. destruct (Zodd_ex u Ou) as [k ->].
    rewrite Z.pow_add_r, Z.pow_mul_r by lia. change ((-1) ^ 2) with 1. rewrite Z.pow_1_l by lia. reflexivity.
  - destruct IH as (j & v & Hj & Hv & Hl); [intros; apply H; right; auto|].
    assert (UP : forall y i k, 0 <= i < k -> cg n (y ^ (2 ^ i * u)) 1 \/ cg n (y ^ (2 ^ i * u)) (-1) -> cg n (y ^ (2 ^ k * u)) 1).
    { intros y i k Hik E. replace (2 ^ k * u) with ((2 ^ i * u) * (2 * 2 ^ (k - i - 1))).
      - rewrite Z.pow_mul_r; try (apply Z.mul_nonneg_nonneg; try lia; apply Z.pow_nonneg; lia).
        apply sq_pow_even; [apply Z.pow_nonneg; lia|]. apply pm_sq; auto.
      - rewrite <- Z.pow_succ_r by lia. replace (2 ^ k) with (2 ^ (i + Z.succ (k - i - 1))) by (f_equal; lia). rewrite Z.pow_add_r by lia. ring. }
    destruct (H x (or_introl eq_refl)) as [X|(j' & Hj' & X)].
    + exists j, v. split; auto. split; auto. intros y [<-|Hy]; auto. left.
      rewrite Z.mul_comm, Z.pow_mul_r; [|lia|apply Z.pow_nonneg; lia]. rewrite <- (one_pow (2 ^ j)) by (apply Z.pow_nonneg; lia).
      apply cg_pow; [apply Z.pow_nonneg; lia|auto].
    + destruct (Z.lt_trichotomy j' j) as [C|[C|C]].
      * exists j, v. split; auto. split; auto. intros y [<-|Hy]; auto. left. apply (UP x j'); [lia|auto].
      * subst j'. exists j, v. split; auto. split; auto. intros y [<-|Hy]; auto.
      * exists j', x. split; auto. split; auto. intros y [<-|Hy]; auto. left. apply (UP y j); [lia|auto].
Qed.

Lemma not_one_minus_one n : 2 < n -> ~ cg n 1 (-1).
Proof. intros Hn D. unfold cg in D. apply Z.divide_pos_le in D; lia. Qed.

(** Two multipliers that agree (as 1) in one component and differ in another. *)
Lemma pair_disjoint n nA nB m w w' x y : 2 < nA -> 2 < nB -> (nA | n) -> (nB | n) -> 0 <= m ->
  cg nA (w ^ m) 1 -> cg nA (w' ^ m) 1 -> cg nB (w ^ m) 1 -> cg nB (w' ^ m) (-1) ->
  (cg n (x ^ m) 1 \/ cg n (x ^ m) (-1)) -> (cg n (y ^ m) 1 \/ cg n (y ^ m) (-1)) ->
  ~ cg n (w * x) (w' * y).
Proof.
  intros HA HB DA DB Hm WA WA' WB WB' X Y E. apply (cg_pow n _ _ m Hm) in E. rewrite !Z.pow_mul_l in E.
  assert (K : forall d sx sy sw sw', (d | n) -> cg n (x ^ m) sx -> cg n (y ^ m) sy -> cg d (w ^ m) sw -> cg d (w' ^ m) sw' -> cg d (sw * sx) (sw' * sy)).
  { intros d sx sy sw sw' D HX HY HW HW'. eapply cg_trans; [|eapply cg_trans; [apply (cg_sub_mod n d); [exact D|exact E]|]].
    - apply cg_sym, cg_mul; [exact HW|exact (cg_sub_mod n d _ _ D HX)].
    - apply cg_mul; [exact HW'|exact (cg_sub_mod n d _ _ D HY)]. }
  destruct X as [X|X], Y as [Y|Y];
    pose proof (K nA _ _ _ _ DA X Y WA WA') as KA; pose proof (K nB _ _ _ _ DB X Y WB WB') as KB; cbn in KA, KB.
  - apply not_one_minus_one in KB; auto.
  - apply not_one_minus_one in KA; auto.
  - apply cg_sym, not_one_minus_one in KA; auto.
  - apply cg_sym, not_one_minus_one in KB; auto.
Qed.

Lemma cg_neg_sym n a b : ~ cg n a b -> ~ cg n b a.
Proof. intros H E. apply H, cg_sym, E. Qed.

(** Chinese remainders for two moduli *)
Lemma crt2 a b n m : Z.gcd n m = 1 -> exists w, cg n w a /\ cg m w b.
Proof.
  intro G. assert (RP : rel_prime n m) by (apply Zgcd_1_rel_prime; auto). destruct (rel_prime_bezout _ _ RP) as [u v E].
  exists (a * (v * m) + b * (u * n)). split.
  - exists ((b - a) * u). replace (v * m) with (1 - u * n) by lia. ring.
  - exists ((a - b) * v). replace (u * n) with (1 - v * m) by lia. ring.
Qed.

(** Three pairwise coprime factors. *)
Lemma bound3 n1 n2 n3 m v l : 2 < n1 -> 2 < n2 -> 2 < n3 -> Z.gcd n1 n2 = 1 -> Z.gcd n1 n3 = 1 -> Z.gcd n2 n3 = 1 ->
  let n := n1 * n2 * n3 in 0 < m -> cg n (v ^ m) (-1) -> NoDup l ->
  (forall x, In x l -> 0 <= x < n /\ (cg n (x ^ m) 1 \/ cg n (x ^ m) (-1))) ->
  4 * Z.of_nat (length l) <= n - 1.
Proof.
  intros H1 H2 H3 G12 G13 G23 n Hm Hv N R.
  assert (D1 : (n1 | n)) by (exists (n2 * n3); unfold n; ring). assert (D2 : (n2 | n)) by (exists (n1 * n3); unfold n; ring).
  assert (D3 : (n3 | n)) by (exists (n1 * n2); unfold n; ring).
  assert (Hn : 1 < n) by (unfold n; assert (4 < n1 * n2) by nia; nia).
  assert (cop : forall a b c, Z.gcd a b = 1 -> Z.gcd a c = 1 -> Z.gcd a (b * c) = 1).
  { intros a b c A B. apply Zgcd_1_rel_prime. apply rel_prime_mult; apply Zgcd_1_rel_prime; auto. }
  destruct (crt2 v 1 n1 (n2 * n3)) as (w1 & W1 & W1'); [apply cop; auto|].
  destruct (crt2 v 1 n2 (n1 * n3)) as (w2 & W2 & W2'); [apply cop; auto; rewrite Z.gcd_comm; auto|].
  destruct (crt2 v 1 n3 (n1 * n2)) as (w3 & W3 & W3'); [apply cop; rewrite Z.gcd_comm; auto|].
  assert (PV : forall d w, (d | n) -> cg d w v -> cg d (w ^ m) (-1)).
  { intros d w D W. eapply cg_trans; [apply cg_pow; [lia|exact W]|]. exact (cg_sub_mod _ _ _ _ D Hv). }
  assert (P1 : forall d d' w, (d | d') -> cg d' w 1 -> cg d (w ^ m) 1).
  { intros d d' w D W. rewrite <- (one_pow m) by lia. apply cg_pow; [lia|]. exact (cg_sub_mod _ _ _ _ D W). }
  assert (F12 : (n1 | n1 * n2)) by (exists n2; ring). assert (F13 : (n1 | n1 * n3)) by (exists n3; ring).
  assert (F21 : (n2 | n1 * n2)) by (exists n1; ring). assert (F23 : (n2 | n2 * n3)) by (exists n3; ring).
  assert (F31 : (n3 | n1 * n3)) by (exists n1; ring). assert (F32 : (n3 | n2 * n3)) by (exists n2; ring).
  assert (UN : forall w s1 s2 s3, (s1 = 1 \/ s1 = -1) -> (s2 = 1 \/ s2 = -1) -> (s3 = 1 \/ s3 = -1) ->
    cg n1 (w ^ m) s1 -> cg n2 (w ^ m) s2 -> cg n3 (w ^ m) s3 -> unit n w).
  { intros w s1 s2 s3 S1 S2 S3 A1 A2 A3. apply (unit_pow n w (m * 2)); [lia|]. rewrite Z.pow_mul_r, Z.pow_2_r by lia.
    unfold n. apply cg_coprime; [rewrite Z.gcd_comm; apply cop; rewrite Z.gcd_comm; auto|apply cg_coprime; auto|].
    - apply pm_sq. destruct S1 as [-> | ->]; auto.
    - apply pm_sq. destruct S2 as [-> | ->]; auto.
    - apply pm_sq. destruct S3 as [-> | ->]; auto. }
  assert (O : forall d, cg d (1 ^ m) 1) by (intro; rewrite one_pow by lia; apply cg_refl).
  apply (translates_bound n l [1; w1; w2; w3]); auto.
  - intros x Hx. destruct (R x Hx) as [B X]. split; auto. apply (unit_pow n x (m * 2)); [lia|]. rewrite Z.pow_mul_r, Z.pow_2_r by lia. apply pm_sq; auto.
  - intros w [<-|[<-|[<-|[<-|[]]]]].
    + exists 1. apply cg_refl.
    + apply (UN w1 (-1) 1 1); auto; solve [eapply P1; [|eassumption]; assumption].
    + apply (UN w2 1 (-1) 1); auto; solve [eapply P1; [|eassumption]; assumption].
    + apply (UN w3 1 1 (-1)); auto; solve [eapply P1; [|eassumption]; assumption].
  - repeat (apply FOP_cons; [repeat (apply Forall_cons; [|]); try apply Forall_nil|]); try apply FOP_nil; intros x y Hx Hy.
    + apply (pair_disjoint n n2 n1 m); auto; try lia; try (apply R; auto); solve [eapply P1; [|eassumption]; assumption].
    + apply (pair_disjoint n n1 n2 m); auto; try lia; try (apply R; auto); solve [eapply P1; [|eassumption]; assumption].
    + apply (pair_disjoint n n1 n3 m); auto; try lia; try (apply R; auto); solve [eapply P1; [|eassumption]; assumption].
    + apply cg_neg_sym. apply (pair_disjoint n n3 n1 m); auto; try lia; try (apply R; auto); solve [eapply P1; [|eassumption]; assumption].
    + apply cg_neg_sym. apply (pair_disjoint n n2 n1 m); auto; try lia; try (apply R; auto); solve [eapply P1; [|eassumption]; assumption].
    + apply cg_neg_sym. apply (pair_disjoint n n1 n2 m); auto; try lia; try (apply R; auto); solve [eapply P1; [|eassumption]; assumption].
Qed.

(** *** Polynomials modulo a prime have no more roots than their degree *)
(** Coefficients, constant first. *)
Fixpoint ev (c : list Z) (x : Z) : Z := match c with [] => 0 | a :: c => a + x * ev c x end.
(** (P(x) - P(r)) / (x - r) *)
Fixpoint padd (a b : list Z) : list Z :=
  match a, b with [], _ => b | _, [] => a | x :: a, y :: b => (x + y) :: padd a b end.
Fixpoint quo (r : Z) (c : list Z) : list Z :=
  match c with [] => [] | _ :: c => padd c (map (Z.mul r) (quo r c)) end.

Lemma ev_padd a : forall b x, ev (padd a b) x = ev a x + ev b x.
Proof. induction a as [|u a IH]; intros [|v b] x; cbn [padd ev]; [lia|lia|lia|rewrite IH; ring]. Qed.
Lemma ev_scale r a x : ev (map (Z.mul r) a) x = r * ev a x.
Proof. induction a as [|u a IH]; cbn [map ev]; [ring|]. rewrite IH. ring. Qed.
Lemma ev_quo r c x : ev c x - ev c r = (x - r) * ev (quo r c) x.
Proof.
  induction c as [|a c IH]; cbn [ev quo]; [ring|]. rewrite ev_padd, ev_scale.
  transitivity ((x - r) * ev c x + r * (ev c x - ev c r)); [ring|]. rewrite IH. ring.
Qed.
Lemma padd_length a : forall b, (length b <= length a)%nat -> length (padd a b) = length a.
Proof. induction a as [|u a IH]; intros [|v b] H; cbn [padd length] in *; try lia. rewrite IH; lia. Qed.
Lemma quo_length r c : length (quo r c) = (length c - 1)%nat.
Proof. induction c as [|a c IH]; [reflexivity|]. cbn [quo]. rewrite padd_length; cbn [length]; [|rewrite map_length, IH]; lia. Qed.
Lemma padd_last a : forall b d, (length b < length a)%nat -> last (padd a b) d = last a d.
Proof.
  induction a as [|u a IH]; intros [|v b] d H; cbn [padd length] in *; try lia; auto.
  destruct a as [|u' a]; [cbn in *; lia|]. specialize (IH b d ltac:(lia)).
  destruct (padd (u' :: a) b) as [|e f] eqn:E.
  - destruct b; cbn in E; discriminate.
  - change (last (e :: f) d = last (u' :: a) d). exact IH.
Qed.
Lemma quo_last r c d : (2 <= length c)%nat -> last (quo r c) d = last c d.
Proof.
  destruct c as [|a c]; cbn [length]; [lia|]. intro H. cbn [quo]. rewrite padd_last by (rewrite map_length, quo_length; lia).
  destruct c; [cbn in H; lia|reflexivity].
Qed.

Lemma roots_bound q : prime q -> forall k c l, length c = S k -> ~ (q | last c 0) -> NoDup l ->
  (forall x, In x l -> 0 <= x < q /\ (q | ev c x)) -> (length l <= k)%nat.
Proof.
  intros P. induction k as [|k IH]; intros c l L NZ N R.
  - destruct c as [|a [|b c]]; try discriminate. destruct l as [|x l]; [cbn; lia|]. exfalso. apply NZ.
    destruct (R x (or_introl eq_refl)) as [_ D]. cbn in *. replace (a + x * 0) with a in D by ring. exact D.
  - destruct l as [|r l]; [cbn; lia|]. inversion N as [|? ? NI N']; subst. cbn [length]. apply le_n_S.
    apply (IH (quo r c)); auto.
    + rewrite quo_length, L. lia.
    + rewrite quo_last by lia. auto.
    + intros x Hx. destruct (R x (or_intror Hx)) as [B D]. destruct (R r (or_introl eq_refl)) as [Br Dr]. split; auto.
      assert (K : (q | (x - r) * ev (quo r c) x)) by (rewrite <- ev_quo; apply Z.divide_sub_r; auto).
      apply prime_mult in K; auto. destruct K as [K|K]; auto. exfalso.
      assert (x = r) by (apply (cg_small q); auto). subst. auto.
Qed.

(** x^d - 1 *)
Definition pm1 (d : nat) : list Z := (-1) :: repeat 0 (d - 1) ++ [1].
Lemma ev_repeat0 k x a : ev (repeat 0 k ++ [a]) x = a * x ^ Z.of_nat k.
Proof.
  induction k as [|k IH]; [cbn; ring|]. cbn [repeat app ev]. rewrite IH, Nat2Z.inj_succ, Z.pow_succ_r by lia. ring.
Qed.
Lemma ev_pm1 d x : (0 < d)%nat -> ev (pm1 d) x = x ^ Z.of_nat d - 1.
Proof.
  intro H. unfold pm1. cbn [ev]. rewrite ev_repeat0. replace (Z.of_nat d) with (Z.succ (Z.of_nat (d - 1))) by lia. rewrite Z.pow_succ_r by lia. ring.
Qed.

(** For d < q - 1 some residue is no d-th root of one. *)
Lemma non_root q d : prime q -> 0 < d < q - 1 -> exists g, 1 <= g < q /\ ~ cg q (g ^ d) 1.
Proof.
  intros P Hd. pose proof (prime_ge_2 q P).
  destruct (Exists_dec (fun g => ~ cg q (g ^ d) 1) (residues q)) as [E|NE].
  - intro g. destruct (Zdivide_dec q (g ^ d - 1)) as [D|D]; [right; intro H'; apply H'; exact D|left; exact D].
  - apply Exists_exists in E as (g & Hg & E). apply residues_in in Hg. exists g. auto.
  - exfalso. assert (L : (length (residues q) <= Z.to_nat d)%nat).
    { apply (roots_bound q P (Z.to_nat d) (pm1 (Z.to_nat d))).
      - unfold pm1. cbn [length]. rewrite app_length, repeat_length. cbn. lia.
      - unfold pm1. rewrite (last_last (-1 :: repeat 0 (Z.to_nat d - 1)) 1 0 : last ((-1) :: repeat 0 (Z.to_nat d - 1) ++ [1]) 0 = 1).
        intro D. apply Z.divide_pos_le in D; lia.
      - apply residues_nodup.
      - intros x Hx. apply residues_in in Hx as Hx'. split; [lia|]. rewrite ev_pm1, Z2Nat.id by lia.
        destruct (Zdivide_dec q (x ^ d - 1)) as [D|D]; auto. exfalso. apply NE. apply Exists_exists. exists x. auto. }
    rewrite residues_length in L. lia.
Qed.

(** *** Two primes *)
Lemma gcd_primes p q : prime p -> prime q -> p <> q -> Z.gcd p q = 1.
Proof.
  intros P Q N. apply Zgcd_1_rel_prime. apply prime_rel_prime; auto. intro D.
  apply prime_div_prime in D; auto.
Qed.

Lemma bound2 p q m k v l : prime p -> prime q -> 2 < p -> p < q ->
  let n := p * q in 0 < m -> 0 < k -> n - 1 = m * (2 * k) -> cg n (v ^ m) (-1) -> NoDup l ->
  (forall x, In x l -> 0 <= x < n /\ (cg n (x ^ m) 1 \/ cg n (x ^ m) (-1))) ->
  4 * Z.of_nat (length l) <= n - 1.
Proof.
  intros P Q Hp Hpq n Hm Hk En Hv N R.
  assert (Hn : 1 < n) by (unfold n; nia).
  assert (G : Z.gcd p q = 1) by (apply gcd_primes; auto; lia).
  assert (Dp : (p | n)) by (exists q; unfold n; ring). assert (Dq : (q | n)) by (exists p; unfold n; ring).
  destruct (crt2 v 1 p q G) as (w & Wp & Wq).
  assert (WP : cg p (w ^ m) (-1)).
  { eapply cg_trans; [apply cg_pow; [lia|exact Wp]|]. exact (cg_sub_mod _ _ _ _ Dp Hv). }
  assert (WQ : cg q (w ^ m) 1) by (rewrite <- (one_pow m) by lia; apply cg_pow; [lia|exact Wq]).
  assert (W2 : cg n (w ^ m * w ^ m) 1) by (unfold n; apply cg_coprime; auto; apply pm_sq; auto).
  destruct (non_root q (p - 1) Q ltac:(lia)) as (g0 & Hg0 & NR).
  destruct (crt2 1 g0 p q G) as (g & Gp & Gq).
  assert (Ug : unit n g).
  { apply (unit_pow n g ((q - 1) * (p - 1))); [nia|]. unfold n. apply cg_coprime; auto.
    - apply cg_pow1; [nia|auto].
    - rewrite Z.pow_mul_r by lia. apply cg_pow1; [lia|].
      eapply cg_trans; [apply cg_pow; [lia|exact Gq]|]. apply cg_mod; [lia|]. rewrite (Z.mod_small 1) by lia. apply fermat1; auto.
      intro D. apply Z.divide_pos_le in D; lia. }
  assert (NG : ~ cg n (g ^ (n - 1)) 1).
  { intro E. apply NR. eapply cg_trans; [|exact (cg_sub_mod _ _ _ _ Dq E)]. apply cg_sym.
    eapply cg_trans; [apply cg_pow; [lia|exact Gq]|]. unfold n. replace (p * q - 1) with ((q - 1) * p + (p - 1)) by ring.
    rewrite Z.pow_add_r by (try lia; apply Z.mul_nonneg_nonneg; lia). rewrite Z.pow_mul_r by lia. replace (g0 ^ (p - 1)) with (1 ^ p * g0 ^ (p - 1)) at 2 by (rewrite one_pow by lia; ring).
    apply cg_mul; [|apply cg_refl]. apply cg_pow; [lia|]. apply cg_mod; [lia|]. rewrite (Z.mod_small 1) by lia. apply fermat1; auto.
    intro D. apply Z.divide_pos_le in D; lia. }
  assert (Uw : unit n w).
  { apply (unit_pow n w (m * 2)); [lia|]. rewrite Z.pow_mul_r, Z.pow_2_r by lia. auto. }
  assert (KL : forall y, cg n (y ^ m * y ^ m) 1 -> cg n (y ^ (n - 1)) 1).
  { intros y Y. rewrite En, Z.pow_mul_r by lia. apply sq_pow_even; [lia|auto]. }
  assert (LX : forall x, In x l -> cg n (x ^ (n - 1)) 1) by (intros x Hx; apply KL, pm_sq, R; auto).
  assert (LW : cg n (w ^ (n - 1)) 1) by (apply KL; auto).
  assert (PROD : forall a b, cg n (a ^ (n - 1)) 1 -> cg n (b ^ (n - 1)) 1 -> cg n ((a * b) ^ (n - 1)) 1).
  { intros a b A B. rewrite Z.pow_mul_l. apply (cg_mul n _ 1 _ 1); auto. }
  assert (OUT : forall a b, cg n (a ^ (n - 1)) 1 -> cg n (b ^ (n - 1)) 1 -> ~ cg n a (g * b)).
  { intros a b A B E. apply NG. apply (cg_pow n _ _ (n - 1) ltac:(lia)) in E. rewrite Z.pow_mul_l in E.
    eapply cg_trans; [|exact A]. apply cg_sym. eapply cg_trans; [exact E|].
    replace (g ^ (n - 1)) with (g ^ (n - 1) * 1) at 2 by ring. apply cg_mul; [apply cg_refl|auto]. }
  assert (O : forall d, cg d (1 ^ m) 1) by (intro; rewrite one_pow by lia; apply cg_refl).
  assert (PD : forall x y, In x l -> In y l -> ~ cg n (1 * x) (w * y)).
  { intros x y Hx Hy. apply (pair_disjoint n q p m); [lia|lia|auto|auto|lia|auto|auto|auto|auto|apply R; auto|apply R; auto]. }
  apply (translates_bound n l [1; w; g; g * w]); auto.
  - intros x Hx. destruct (R x Hx) as [B X]. split; auto. apply (unit_pow n x (m * 2)); [lia|]. rewrite Z.pow_mul_r, Z.pow_2_r by lia. apply pm_sq; auto.
  - intros y [<-|[<-|[<-|[<-|[]]]]]; auto.
    + exists 1. apply cg_refl.
    + apply unit_mul; auto.
  - repeat (apply FOP_cons; [repeat (apply Forall_cons; [|]); try apply Forall_nil|]); try apply FOP_nil; intros x y Hx Hy.
    + apply PD; auto.
    + rewrite Z.mul_1_l. apply OUT; auto.
    + rewrite Z.mul_1_l, <- Z.mul_assoc. apply OUT; auto.
    + apply OUT; auto.
    + rewrite <- (Z.mul_assoc g). apply OUT; auto.
    + rewrite <- Z.mul_assoc. intro E. apply unit_cancel in E; auto. apply (PD x y); auto. rewrite Z.mul_1_l. auto.
Qed.

(** *** A square factor *)
Lemma pow_1_plus n h k : 0 <= k -> (n | h * h) -> cg n ((1 + h) ^ k) (1 + k * h).
Proof.
  intros Hk D. revert k Hk. apply natlike_ind; [rewrite Z.pow_0_r, Z.mul_0_l; apply cg_refl|]. intros k Hk IH.
  rewrite Z.pow_succ_r by lia. eapply cg_trans; [apply cg_mul; [apply cg_refl|exact IH]|].
  unfold cg. replace ((1 + h) * (1 + k * h) - (1 + Z.succ k * h)) with (k * (h * h)) by (unfold Z.succ; ring).
  apply Z.divide_mul_r; auto.
Qed.

Lemma bound_square n p l : 1 < n -> prime p -> 3 < p -> (p * p | n) -> NoDup l ->
  (forall x, In x l -> 0 <= x < n /\ cg n (x ^ (n - 1)) 1) -> 4 * Z.of_nat (length l) <= n - 1.
Proof.
  intros Hn P Hp [c Ec] N R. set (h := c * p). assert (En : n = h * p) by (unfold h; lia).
  assert (Hh : (n | h * h)) by (exists c; unfold h; rewrite Ec; ring).
  assert (Hh' : forall i, (n | (i * h) * (i * h))).
  { intro i. replace (i * h * (i * h)) with ((i * i) * (h * h)) by ring. apply Z.divide_mul_r; auto. }
  assert (U : forall i, unit n (1 + i * h)).
  { intro i. exists (1 - i * h). unfold cg. replace ((1 + i * h) * (1 - i * h) - 1) with (- ((i * h) * (i * h))) by ring.
    apply Z.divide_opp_r. auto. }
  assert (W : forall i, cg n ((1 + i * h) ^ (n - 1)) (1 - i * h)).
  { intro i. eapply cg_trans; [apply pow_1_plus; [lia|auto]|]. exists (i * h). ring. }
  assert (DJ : forall i j x y, In x l -> In y l -> 0 < j - i < p -> ~ cg n ((1 + i * h) * x) ((1 + j * h) * y)).
  { intros i j x y Hx Hy Hij E. apply (cg_pow n _ _ (n - 1) ltac:(lia)) in E. rewrite !Z.pow_mul_l in E.
    assert (K : cg n (1 - i * h) (1 - j * h)).
    { eapply cg_trans; [|eapply cg_trans; [exact E|]].
      - apply cg_sym. replace (1 - i * h) with ((1 - i * h) * 1) by ring. apply cg_mul; [auto|apply R; auto].
      - replace (1 - j * h) with ((1 - j * h) * 1) by ring. apply cg_mul; [auto|apply R; auto]. }
    destruct K as [k K]. rewrite En in K. assert (Hh0 : h <> 0) by (intro H0; rewrite En, H0 in Hn; lia).
    assert (J : j - i = k * p).
    { apply (Z.mul_reg_r _ _ h Hh0). transitivity (1 - i * h - (1 - j * h)); [ring|]. rewrite K. ring. }
    clear - J Hij Hp. assert (k <= 0 \/ 1 <= k) as [C|C] by lia; nia. }
  apply (translates_bound n l [1 + 0 * h; 1 + 1 * h; 1 + 2 * h; 1 + 3 * h]); auto.
  - intros x Hx. destruct (R x Hx) as [B X]. split; auto. apply (unit_pow n x (n - 1)); [lia|auto].
  - intros w [<-|[<-|[<-|[<-|[]]]]]; auto.
  - repeat (apply FOP_cons; [repeat (apply Forall_cons; [|]); try apply Forall_nil|]); try apply FOP_nil; intros x y Hx Hy; apply DJ; auto; lia.
Qed.

(** *** The bound *)
Lemma odd_prime_factor n p : Z.odd n = true -> prime p -> (p | n) -> 2 < p.
Proof.
  intros O P [k E]. pose proof (prime_ge_2 p P). destruct (Z.eq_dec p 2) as [->|]; [|lia]. exfalso.
  rewrite E, Z.odd_mul in O. cbn in O. rewrite Bool.andb_false_r in O. discriminate.
Qed.

Lemma prime_factor n : 1 < n -> exists p, prime p /\ (p | n).
Proof.
  intro Hn. assert (W : forall k n, 1 < n -> n <= Z.of_nat k -> exists p, prime p /\ (p | n)).
  { induction k as [|k IH]; intros x Hx L; [lia|]. destruct (prime_dec x) as [P|NP]; [exists x; split; [auto|apply Z.divide_refl]|].
    apply not_prime_divide in NP; auto. destruct NP as (y & Hy & D). destruct (IH y) as (p & P & D'); [lia|lia|].
    exists p. split; auto. eapply Z.divide_trans; eauto. }
  apply (W (Z.to_nat n)); lia.
Qed.

Lemma prime_gcd p n : prime p -> ~ (p | n) -> Z.gcd p n = 1.
Proof. intros P D. apply Zgcd_1_rel_prime, prime_rel_prime; auto. Qed.

(** a^(n-1) = -1 is impossible for odd n: 2^(t+1) would divide r - 1 for every
    prime factor r of n, hence n - 1. *)
Lemma pow_gcd_cg a r x y : 1 < r -> 0 <= x -> 0 <= y -> cg r (a ^ x) 1 -> cg r (a ^ y) 1 -> cg r (a ^ Z.gcd x y) 1.
Proof.
  intros Hr Hx Hy A B. apply cg_mod; [lia|]. rewrite (Z.mod_small 1) by lia. apply (pow_gcd a r Hr (S (Z.to_nat y)) x y); auto; try lia;
    [apply cg_mod in A; [rewrite (Z.mod_small 1) in A by lia; exact A|lia]|apply cg_mod in B; [rewrite (Z.mod_small 1) in B by lia; exact B|lia]].
Qed.

Lemma minus_one_order r a t u : prime r -> 2 < r -> 0 <= t -> 0 < u -> Z.odd u = true -> cg r (a ^ (2 ^ t * u)) (-1) -> (2 ^ (t + 1) | r - 1).
Proof.
  intros R Hr Ht Hu O H. set (c := a ^ u).
  assert (P2 : 0 < 2 ^ t) by (apply Z.pow_pos_nonneg; lia).
  assert (C : cg r (c ^ (2 ^ t)) (-1)) by (unfold c; rewrite <- Z.pow_mul_r by lia; rewrite Z.mul_comm; exact H).
  assert (E2 : 2 ^ (t + 1) = 2 ^ t * 2) by (rewrite Z.pow_add_r by lia; reflexivity).
  assert (C2 : cg r (c ^ (2 ^ (t + 1))) 1).
  { rewrite E2, Z.pow_mul_r by lia. rewrite Z.pow_2_r. apply pm_sq; auto. }
  assert (F : cg r (c ^ (r - 1)) 1).
  { apply cg_mod; [lia|]. rewrite (Z.mod_small 1) by lia. apply fermat1; auto. intro D.
    assert (Z0 : cg r (c ^ (2 ^ t)) 0).
    { replace (2 ^ t) with (Z.succ (2 ^ t - 1)) by lia. rewrite Z.pow_succ_r by lia. unfold cg. rewrite Z.sub_0_r. apply Z.divide_mul_l; auto. }
    assert (K : cg r 0 (-1)) by (eapply cg_trans; [apply cg_sym; exact Z0|exact C]). unfold cg in K. cbn in K. apply Z.divide_pos_le in K; lia. }
  assert (G : cg r (c ^ Z.gcd (2 ^ (t + 1)) (r - 1)) 1) by (apply pow_gcd_cg; auto; lia).
  destruct (divide_pow2 (t + 1) ltac:(lia) (Z.gcd (2 ^ (t + 1)) (r - 1)) (Z.gcd_nonneg _ _) (Z.gcd_divide_l _ _)) as (j & Hj & Ej).
  destruct (Z.eq_dec j (t + 1)) as [->|NJ].
  - rewrite <- Ej. apply Z.gcd_divide_r.
  - exfalso. rewrite Ej in G. apply (not_one_minus_one r Hr). eapply cg_trans; [apply cg_sym|exact C].
    replace (2 ^ t) with (2 ^ j * 2 ^ (t - j)) by (rewrite <- Z.pow_add_r by lia; f_equal; lia).
    rewrite Z.pow_mul_r by (apply Z.pow_nonneg; lia). apply cg_pow1; [apply Z.pow_nonneg; lia|auto].
Qed.

(** If every prime factor is 1 modulo d, so is the number. *)
Lemma factors_mod d n : 1 < d -> 1 < n -> (forall r, prime r -> (r | n) -> (d | r - 1)) -> (d | n - 1).
Proof.
  intros Hd. assert (W : forall k n, 0 < n -> n <= Z.of_nat k -> (forall r, prime r -> (r | n) -> (d | r - 1)) -> (d | n - 1)).
  { induction k as [|k IH]; intros x Hx L F; [lia|]. destruct (Z.eq_dec x 1) as [->|N1]; [apply Z.divide_0_r|].
    destruct (prime_factor x ltac:(lia)) as (p & P & [y Ey]). pose proof (prime_ge_2 p P).
    assert (D1 : (d | p - 1)) by (apply F; [auto|exists y; auto]).
    assert (D2 : (d | y - 1)).
    { apply IH; [nia|nia|]. intros r Pr Dr. apply F; auto. rewrite Ey. apply Z.divide_mul_l; auto. }
    rewrite Ey. replace (y * p - 1) with ((y - 1) * p + (p - 1)) by ring. apply Z.divide_add_r; auto. apply Z.divide_mul_l; auto. }
  intros Hn F. apply (W (Z.to_nat n)); auto; lia.
Qed.

Lemma no_minus_one_top n a t u : 1 < n -> Z.odd n = true -> 0 <= t -> 0 < u -> Z.odd u = true -> n - 1 = 2 ^ t * u -> ~ cg n (a ^ (2 ^ t * u)) (-1).
Proof.
  intros Hn O Ht Hu Ou E H. assert (D : (2 ^ (t + 1) | n - 1)).
  { apply factors_mod; auto; [pose proof (Z.pow_gt_1 2 (t + 1) ltac:(lia)); lia|].
    intros r R D. apply (minus_one_order r a t u); auto; [apply (odd_prime_factor n); auto|exact (cg_sub_mod _ _ _ _ D H)]. }
  destruct D as [k D]. rewrite E, Z.pow_add_r in D by lia. assert (P2 : 0 < 2 ^ t) by (apply Z.pow_pos_nonneg; lia).
  assert (u = 2 * k) by (apply (Z.mul_reg_l _ _ (2 ^ t)); lia). subst u. rewrite Z.odd_mul in Ou. discriminate.
Qed.

Lemma odd_part_unique b m b' m' : 0 <= b -> 0 <= b' -> Z.odd m = true -> Z.odd m' = true -> 2 ^ b * m = 2 ^ b' * m' -> b = b' /\ m = m'.
Proof.
  assert (W : forall b m b' m', 0 <= b <= b' -> Z.odd m = true -> Z.odd m' = true -> 2 ^ b * m = 2 ^ b' * m' -> b = b' /\ m = m').
  { intros c x c' x' Hc O O' E. assert (P2 : 0 < 2 ^ c) by (apply Z.pow_pos_nonneg; lia).
    replace (2 ^ c') with (2 ^ c * 2 ^ (c' - c)) in E by (rewrite <- Z.pow_add_r by lia; f_equal; lia).
    assert (x = 2 ^ (c' - c) * x') by (apply (Z.mul_reg_l _ _ (2 ^ c)); lia).
    destruct (Z.eq_dec c c') as [->|N]; [split; auto; rewrite Z.sub_diag in H; lia|]. exfalso.
    replace (c' - c) with (Z.succ (c' - c - 1)) in H by lia. rewrite Z.pow_succ_r in H by lia. subst x. rewrite !Z.odd_mul in O. discriminate. }
  intros Hb Hb' O O' E. destruct (Z.le_ge_cases b b') as [L|L]; [apply W; auto|].
  destruct (W b' m' b m) as [-> ->]; auto.
Qed.

Theorem mr_bound n l : 1 < n -> Z.odd n = true -> ~ (3 | n) -> ~ prime n -> NoDup l ->
  (forall a, In a l -> 0 <= a < n /\ miller_rabin n a) -> 4 * Z.of_nat (length l) <= n - 1.
Proof.
  intros Hn O N3 NP N R.
  assert (H2 : 2 < n) by (destruct (Z.eq_dec n 2) as [->|]; [discriminate|lia]).
  assert (l = [] \/ exists a0, In a0 l) as [->|(a0 & H0)] by (destruct l as [|a0 l0]; [left; auto|right; exists a0; left; auto]); [cbn; lia|].
  destruct (R a0) as (_ & t & u & Ht & E & Ou & _); [exact H0|]. clear H0 a0.
  assert (P2 : 0 < 2 ^ t) by (apply Z.pow_pos_nonneg; lia).
  assert (Hu : 0 < u) by (destruct (Z.le_gt_cases u 0); [exfalso; nia|auto]).
  assert (Ht' : 0 < t).
  { destruct (Z.eq_dec t 0) as [->|]; [|lia]. exfalso. rewrite Z.pow_0_r, Z.mul_1_l in E. rewrite <- E, Z.odd_sub, O in Ou. discriminate. }
  assert (L : forall x, In x l -> cg n (x ^ u) 1 \/ exists j, 0 <= j < t /\ cg n (x ^ (2 ^ j * u)) (-1)).
  { intros x Hx. destruct (R x Hx) as (_ & b & m & Hb & E' & Om & M).
    destruct (odd_part_unique t u b m) as [<- <-]; auto; [rewrite <- E; auto|].
    destruct M as [M|(j & Hj & M)].
    - left. apply cg_mod; [lia|]. rewrite M, Z.mod_small by lia. reflexivity.
    - right. assert (C : cg n (x ^ (2 ^ j * u)) (-1)).
      { apply cg_mod; [lia|]. rewrite M. apply (Z.mod_unique (-1) n (-1)); [left|]; lia. }
      exists j. split; auto. destruct (Z.eq_dec j t) as [->|]; [|lia]. exfalso. revert C. apply no_minus_one_top; auto. }
  destruct (common_exponent n t u l H2 Ht' Ou Hu L) as (j & v & Hj & Hv & Hl).
  set (m := 2 ^ j * u) in *. assert (Hm : 0 < m) by (apply Z.mul_pos_pos; [apply Z.pow_pos_nonneg; lia|auto]).
  assert (Em : n - 1 = m * (2 * 2 ^ (t - j - 1))).
  { rewrite E. unfold m. rewrite <- Z.pow_succ_r by lia. replace (2 ^ t) with (2 ^ j * 2 ^ Z.succ (t - j - 1)) by (rewrite <- Z.pow_add_r by lia; f_equal; lia). ring. }
  assert (Hk : 0 < 2 ^ (t - j - 1)) by (apply Z.pow_pos_nonneg; lia).
  assert (RL : forall x, In x l -> 0 <= x < n /\ (cg n (x ^ m) 1 \/ cg n (x ^ m) (-1))) by (intros x Hx; split; [apply R; auto|apply Hl; auto]).
  assert (RF : forall x, In x l -> 0 <= x < n /\ cg n (x ^ (n - 1)) 1).
  { intros x Hx. destruct (RL x Hx) as [B X]. split; auto. rewrite Em, Z.pow_mul_r by lia. apply sq_pow_even; [lia|]. apply pm_sq; auto. }
  assert (F3 : forall r, prime r -> (r | n) -> 3 < r).
  { intros r Pr Dr. pose proof (odd_prime_factor n r O Pr Dr). destruct (Z.eq_dec r 3) as [->|]; [contradiction|lia]. }
  destruct (prime_factor n Hn) as (p & P & [y Ey]). pose proof (F3 p P ltac:(exists y; auto)) as Hp.
  assert (Hy : 1 < y).
  { assert (0 < y) by nia. destruct (Z.eq_dec y 1) as [->|]; [|lia]. exfalso. apply NP. rewrite Ey, Z.mul_1_l. auto. }
  destruct (Zdivide_dec p y) as [[c Ec]|NDp].
  { apply (bound_square n p); auto. exists c. rewrite Ey, Ec. ring. }
  destruct (prime_factor y Hy) as (q & Q & [z Ez]).
  pose proof (F3 q Q ltac:(rewrite Ey, Ez; exists (z * p); ring)) as Hq.
  assert (NPQ : p <> q) by (intros ->; apply NDp; exists z; auto).
  destruct (Zdivide_dec q z) as [[c Ec]|NDq].
  { apply (bound_square n q); auto. exists (c * p). rewrite Ey, Ez, Ec. ring. }
  assert (Hz : 0 < z) by nia. destruct (Z.eq_dec z 1) as [->|NZ].
  - assert (En : n = p * q) by (rewrite Ey, Ez; ring). destruct (Z.lt_trichotomy p q) as [C|[C|C]]; [|contradiction|].
    + rewrite En in *. apply (bound2 p q m (2 ^ (t - j - 1)) v l); auto. lia.
    + assert (En' : n = q * p) by lia. clear En. rewrite En' in *. apply (bound2 q p m (2 ^ (t - j - 1)) v l); auto. lia.
  - assert (NDz : ~ (p | z)) by (intro D; apply NDp; rewrite Ez; apply Z.divide_mul_l; auto).
    destruct (prime_factor z ltac:(lia)) as (r & Pr & Dr).
    assert (3 < r) by (apply F3; auto; rewrite Ey, Ez; apply Z.divide_mul_l, Z.divide_mul_l; auto).
    assert (Hz3 : 2 < z) by (apply Z.divide_pos_le in Dr; lia).
    assert (En : n = p * q * z) by (rewrite Ey, Ez; ring). rewrite En in *.
    apply (bound3 p q z m v l); auto; try lia; try (apply prime_gcd; auto).
    intro D. apply prime_div_prime in D; auto.
Qed.
