(** The scalar multiplications compute k P. *)
From Coq Require Import ZArith Znumtheory Lia List.
From Verif Require Import Base MpiModel MpiSpec MpiDigits MpiCanon MpiMulModel MpiDivModel MpiDiv MpiAlgModel MpiAlg MpiAlg2 MpiIOModel Pk NumTh EcpModel EcSpec EcZ EcpSpec Ecp.
Import ListNotations.
Open Scope Z_scope.
Ltac Zify.zify_post_hook ::= idtac.

Definition pos (i j : nat) : Z := 64 * Z.of_nat i + Z.of_nat j.
Lemma kbit_ok kz i j : (i < used (ofZ kz))%nat -> (j < 64)%nat -> kbit (ofZ kz) i j = Ok (Z.testbit (Z.abs kz) (pos i j)).
Proof.
  intros Hi Hj. assert (E : pos i j / 64 = Z.of_nat i /\ pos i j mod 64 = Z.of_nat j).
  { unfold pos. replace (64 * Z.of_nat i + Z.of_nat j) with (Z.of_nat j + Z.of_nat i * 64) by lia. rewrite Z.div_add, Z.mod_add, Z.div_small, Z.mod_small by lia. lia. }
  destruct E as [E1 E2]. pose proof (is_bit_set_ok (ofZ kz) (pos i j)) as H. rewrite mval_ofZ in H. rewrite <- H.
  - unfold kbit, is_bit_set. rewrite E1, E2, Nat2Z.id. reflexivity.
  - apply canon_wf, canon_ofZ.
  - unfold pos. lia.
Qed.

Section Curve.
Variables (p a b : Z) (am : mpi).
Hypothesis HA : a_rep am a.
Hypothesis HG : good_curve p a b.
Variables (G : ecpoint) (n : Z).
Variable P : ecpoint.
Hypothesis HP : on_curve p a b P.
Hypothesis N2 : no_order2 p a P.
Local Notation g := (egrp p am b G n).
Local Notation "k ** Q" := (ec_mul p a k Q) (at level 40).
Local Notation R k := (ept (k ** P)).

Lemma add_mult j k : 0 <= j -> 0 <= k -> ecp_add g (R j) (R k) = Ok (R (j + k)).
Proof.
  intros Hj Hk. rewrite (ecp_add_ok p a b am HA HG) by (try (apply (ec_mul_on p a b HG); auto); intros [_ [x E]]; apply (N2 j x Hj E)).
  rewrite (ec_mul_add p a b HG) by auto. reflexivity.
Qed.
Lemma dbl_mult j : 0 <= j -> ecp_dbl g (R j) = Ok (R (2 * j)).
Proof.
  intros Hj. rewrite (ecp_dbl_ok p a b am HA HG); [|apply (ec_mul_on p a b HG); auto|intros x E; apply (N2 j x Hj E)].
  replace (2 * j) with (j + j) by lia. rewrite (ec_mul_add p a b HG) by auto. reflexivity.
Qed.
Lemma R1 : ept P = R 1. Proof. rewrite ec_mul_1. reflexivity. Qed.
Lemma win_next m : forall j, 0 <= j -> ecp_win_next g m (R j) (ept P) = Ok (map (fun i => R (j + Z.of_nat i)) (seq 1 m)).
Proof.
  induction m as [|m IH]; intros j Hj; [reflexivity|]. cbn [ecp_win_next seq map]. rewrite R1 at 1. rewrite add_mult by lia. cbn [bind]. rewrite IH by lia. cbn [bind].
  do 2 f_equal. rewrite <- (seq_shift m 1), map_map. apply map_ext. intro i. f_equal. f_equal. lia.
Qed.
Lemma win_ok : ecp_win g (ept P) = Ok (map (fun i => R (8 + Z.of_nat i)) (seq 0 8)).
Proof.
  unfold ecp_win. rewrite R1 at 1. rewrite dbl_mult by lia. cbn [bind]. rewrite dbl_mult by lia. cbn [bind]. rewrite dbl_mult by lia. cbn [bind].
  rewrite win_next by lia. reflexivity.
Qed.
Lemma dbl_if_ok q : 0 <= q -> dbl_if g (q =? 0) (R q) = Ok (R (2 * q)).
Proof. intro H. unfold dbl_if. destruct (Z.eqb_spec q 0) as [->|_]; [reflexivity|apply dbl_mult; auto]. Qed.
Lemma add_if_ok q j : 0 <= q -> 0 <= j -> add_if g (q =? 0) (R q) (R j) = Ok (R (q + j)).
Proof. intros H H'. unfold add_if. destruct (Z.eqb_spec q 0) as [->|_]; [reflexivity|apply add_mult; auto]. Qed.

Lemma lor_shift w (c : bool) : Z.lor (Z.shiftl w 1) (if c then 1 else 0) = 2 * w + Z.b2z c.
Proof.
  rewrite Z.shiftl_mul_pow2 by lia. change (2 ^ 1) with 2. destruct c; [|rewrite Z.lor_0_r; cbn [Z.b2z]; lia].
  cbn [Z.b2z]. rewrite (Z.mul_comm w). destruct w as [|q|q]; try reflexivity. destruct q; reflexivity.
Qed.
Lemma paf2 m : (2 * m =? 0) = (m =? 0). Proof. destruct (Z.eqb_spec m 0) as [->|]; [reflexivity|]. apply Z.eqb_neq. lia. Qed.
Lemma b2z_range c : 0 <= Z.b2z c <= 1. Proof. destruct c; cbn; lia. Qed.

Variables (k : mpi) (N : Z).
Hypothesis HN : 0 <= N.
Hypothesis Hbit : forall i j, (i < used k)%nat -> (j < 64)%nat -> kbit k i j = Ok (Z.testbit N (pos i j)).
(** one bit further: position s - 1 *)
Lemma shift_bit s : 0 < s -> N / 2 ^ (s - 1) = 2 * (N / 2 ^ s) + Z.b2z (Z.testbit N (s - 1)).
Proof. intro H. rewrite (testbit_div N (s - 1)) by lia. replace (s - 1 + 1) with s by lia. reflexivity. Qed.
Lemma win_round f paf w i j m : (i < used k)%nat -> (j < 64)%nat -> 0 < pos i j -> 0 <= m -> 0 < w < 8 -> paf = (m =? 0) ->
  N / 2 ^ pos i j = m + w ->
  exists i' j' w', (i' < used k)%nat /\ (j' < 64)%nat /\ pos i' j' = pos i j - 1 /\ (65 * i' + j' < 65 * i + j)%nat /\
  2 * w <= w' <= 2 * w + 1 /\ N / 2 ^ pos i' j' = 2 * m + w' /\
  win_loop (S f) g k paf w i j (R m) = win_loop f g k paf w' i' j' (R (2 * m)).
Proof.
  intros Hi Hj Hs Hm Hw -> Hc. pose proof (b2z_range (Z.testbit N (pos i j - 1))) as Bb. pose proof (shift_bit (pos i j) Hs) as Sb. rewrite Hc in Sb.
  destruct j as [|j].
  - destruct i as [|i]; [unfold pos in Hs; clear - Hs; lia|]. exists i, 63%nat, (2 * w + Z.b2z (Z.testbit N (pos (S i) 0 - 1))).
    assert (Ep : pos i 63 = pos (S i) 0 - 1) by (unfold pos; clear; lia).
    split; [clear - Hi; lia|]. split; [clear; lia|]. split; [exact Ep|]. split; [clear; lia|]. split; [clear - Bb; lia|]. split; [rewrite Ep, Sb; ring|].
    cbn [win_loop]. destruct (Z.ltb_spec w 8) as [_|L]; [|clear - L Hw; lia]. cbn [bind Nat.sub].
    rewrite dbl_if_ok by auto. cbn [bind]. rewrite Hbit by (clear - Hi; lia). cbn [bind]. rewrite lor_shift, Ep. reflexivity.
  - exists i, j, (2 * w + Z.b2z (Z.testbit N (pos i (S j) - 1))).
    assert (Ep : pos i j = pos i (S j) - 1) by (unfold pos; clear; lia).
    split; [exact Hi|]. split; [clear - Hj; lia|]. split; [exact Ep|]. split; [clear; lia|]. split; [clear - Bb; lia|]. split; [rewrite Ep, Sb; ring|].
    cbn [win_loop]. destruct (Z.ltb_spec w 8) as [_|L]; [|clear - L Hw; lia]. cbn [bind Nat.sub]. rewrite Nat.sub_0_r.
    rewrite dbl_if_ok by auto. cbn [bind]. rewrite Hbit by (clear - Hi Hj; lia). cbn [bind]. rewrite lor_shift, Ep. reflexivity.
Qed.
Lemma win_loop_ok i j m : (i < used k)%nat -> (j < 64)%nat -> 3 <= pos i j -> 0 <= m -> N / 2 ^ pos i j = m + 1 ->
  exists w i' j', (i' < used k)%nat /\ (j' < 64)%nat /\ pos i' j' = pos i j - 3 /\ (65 * i' + j' < 65 * i + j)%nat /\ 8 <= w < 16 /\
  N / 2 ^ pos i' j' = 8 * m + w /\
  win_loop 5 g k (m =? 0) 1 i j (R m) = Ok (w, i', j', R (8 * m)).
Proof.
  intros Hi Hj Hs Hm Hc.
  destruct (win_round 4 (m =? 0) 1 i j m Hi Hj) as (i1 & j1 & w1 & Hi1 & Hj1 & Ep1 & L1 & W1 & C1 & E1); [lia..|reflexivity|exact Hc|].
  destruct (win_round 3 (m =? 0) w1 i1 j1 (2 * m) Hi1 Hj1) as (i2 & j2 & w2 & Hi2 & Hj2 & Ep2 & L2 & W2 & C2 & E2); [clear - Ep1 Hs Hm W1; lia..|symmetry; apply paf2|exact C1|].
  destruct (win_round 2 (m =? 0) w2 i2 j2 (2 * (2 * m)) Hi2 Hj2) as (i3 & j3 & w3 & Hi3 & Hj3 & Ep3 & L3 & W3 & C3 & E3); [clear - Ep1 Ep2 Hs Hm W1 W2; lia..|rewrite !paf2; reflexivity|exact C2|].
  exists w3, i3, j3. split; [exact Hi3|]. split; [exact Hj3|]. split; [clear - Ep1 Ep2 Ep3; lia|]. split; [clear - L1 L2 L3; lia|]. split; [clear - W1 W2 W3; lia|]. split; [rewrite C3; ring|].
  rewrite E1, E2, E3. cbn [win_loop]. destruct (Z.ltb_spec w3 8) as [L|_]; [clear - L W1 W2 W3; lia|]. replace (2 * (2 * (2 * m))) with (8 * m) by ring. reflexivity.
Qed.
Lemma land7 w : 8 <= w < 16 -> Z.land w 7 = w - 8.
Proof. intro H. change 7 with (Z.ones 3). rewrite Z.land_ones by lia. change (2 ^ 3) with 8. symmetry. apply (Z.mod_unique_pos w 8 1); lia. Qed.
Local Notation win := (map (fun i => R (8 + Z.of_nat i)) (seq 0 8)).
Lemma nth_win w : 8 <= w < 16 -> nth (Z.to_nat (Z.land w 7)) win ecp_zero = R w.
Proof.
  intro H. rewrite land7 by auto. rewrite (nth_indep win ecp_zero (R (8 + Z.of_nat 0))) by (rewrite map_length, seq_length; lia).
  rewrite (map_nth (fun i => R (8 + Z.of_nat i)) (seq 0 8) 0%nat). rewrite seq_nth by lia. f_equal. f_equal. lia.
Qed.
Lemma mul_loop_ok : forall f i j, (65 * i + j < f)%nat -> (i < used k /\ j <= 64 \/ i = used k /\ j = 0)%nat ->
  mul_loop f g k (ept P) win (N / 2 ^ pos i j =? 0) i j (R (N / 2 ^ pos i j)) = Ok (R N).
Proof.
  induction f as [|f IH]; intros i j Hf HI; [lia|]. cbn [mul_loop]. assert (Hp0 : 0 <= pos i j) by (unfold pos; lia).
  set (q := N / 2 ^ pos i j). assert (Hq : 0 <= q) by (apply Z.div_pos; [lia|apply Z.pow_pos_nonneg; lia]).
  destruct j as [|j].
  - destruct i as [|i].
    + unfold q, pos. rewrite Z.pow_0_r, Z.div_1_r. reflexivity.
    + assert (E : pos (S i) 0 = pos i 64) by (unfold pos; lia). unfold q. rewrite E. apply IH; lia.
  - assert (Hi : (i < used k)%nat) by lia. assert (Hj : (j < 64)%nat) by lia.
    rewrite dbl_if_ok by auto. cbn [bind]. rewrite Hbit by auto. cbn [bind].
    assert (Es : pos i j = pos i (S j) - 1) by (unfold pos; lia).
    assert (Hs : N / 2 ^ pos i j = 2 * q + Z.b2z (Z.testbit N (pos i j))) by (rewrite Es, shift_bit by (unfold pos; lia); reflexivity).
    destruct (Z.testbit N (pos i j)) eqn:Eb; cbn [Z.b2z] in Hs.
    + destruct (negb (Nat.eqb i 0) || Nat.leb 3 j)%bool eqn:Ew.
      * assert (H3 : 3 <= pos i j).
        { unfold pos. apply Bool.orb_prop in Ew. destruct Ew as [Ew|Ew]; [apply Bool.negb_true_iff, Nat.eqb_neq in Ew|apply Nat.leb_le in Ew]; lia. }
        destruct (win_loop_ok i j (2 * q)) as (w & i' & j' & Hi' & Hj' & Ep & L & Hw & C & E); auto; try lia.
        rewrite paf2 in E. rewrite E. cbn [bind]. rewrite nth_win by auto.
        rewrite <- (paf2 q). replace (2 * q =? 0) with (8 * (2 * q) =? 0) by (clear; destruct (Z.eqb_spec (2 * q) 0), (Z.eqb_spec (8 * (2 * q)) 0); auto; lia).
        rewrite add_if_ok by (clear - Hq Hw; lia). cbn [bind]. rewrite <- C.
        replace false with (N / 2 ^ pos i' j' =? 0) by (apply Z.eqb_neq; clear - C Hw Hq; lia). apply IH; clear - Hi' Hj' L Hf; lia.
      * rewrite R1. rewrite <- (paf2 q). rewrite add_if_ok by lia. cbn [bind]. rewrite <- Hs, <- R1.
        replace false with (N / 2 ^ pos i j =? 0) by (apply Z.eqb_neq; lia). apply IH; lia.
    + rewrite <- (paf2 q). replace (2 * q) with (N / 2 ^ pos i j) by lia. apply IH; lia.
Qed.
Hypothesis Hall : N / 2 ^ pos (used k) 0 = 0.
Lemma ecp_mul_gen : ecp_mul g (ept P) k = Ok (R N).
Proof.
  unfold ecp_mul. destruct (ecp_is_zero (ept P)) eqn:Z0.
  - destruct P as [[x y]|]; [discriminate Z0|]. rewrite ec_mul_None. reflexivity.
  - rewrite win_ok. cbn [bind]. pose proof (mul_loop_ok (S (65 * used k)) (used k) 0) as H. rewrite Hall in H. apply H; lia.
Qed.
End Curve.

Lemma shift_all kz : Z.abs kz / 2 ^ pos (used (ofZ kz)) 0 = 0.
Proof.
  apply Z.div_small. split; [lia|]. pose proof (canon_wf _ (canon_ofZ kz)) as W. destruct W as [D _]. pose proof (ofZ_val kz) as V. rewrite <- V. unfold pos.
  pose proof (val_lt (dg (ofZ kz)) D) as Bd. unfold used. rewrite Z.add_0_r. replace (2 ^ (64 * Z.of_nat (length (dg (ofZ kz))))) with (B ^ Z.of_nat (length (dg (ofZ kz)))); [lia|].
  rewrite Z.pow_mul_r by lia. reflexivity.
Qed.
Theorem ecp_mul_ok p a b am G n P kz : a_rep am a -> good_curve p a b -> on_curve p a b P -> no_order2 p a P ->
  ecp_mul (egrp p am b G n) (ept P) (ofZ kz) = Ok (ept (ec_mul p a (Z.abs kz) P)).
Proof.
  intros HA HG HP H2. apply (ecp_mul_gen p a b am HA HG G n P HP H2 (ofZ kz) (Z.abs kz)); [lia|intros; apply kbit_ok; auto|apply shift_all].
Qed.
Theorem ecp_mul_plain_ok p a b am G n P kz : a_rep am a -> good_curve p a b -> on_curve p a b P -> no_order2 p a P ->
  ecp_mul_plain (egrp p am b G n) (ept P) (ofZ kz) = Ok (ept (ec_mul p a (Z.abs kz) P)).
Proof.
  intros HA HG HP H2. unfold ecp_mul_plain. destruct (ecp_is_zero (ept P)) eqn:Z0.
  { destruct P as [[x y]|]; [discriminate Z0|]. rewrite ec_mul_None. reflexivity. }
  set (N := Z.abs kz). assert (HN : 0 <= N) by apply Z.abs_nonneg.
  assert (Cb : count_bits (ofZ kz) = count_bits (ofZ N)) by (unfold N; rewrite !count_bits_ofZ; destruct (Z.eqb_spec kz 0) as [->|]; [reflexivity|]; destruct (Z.eqb_spec (Z.abs kz) 0); [lia|]; rewrite Z.abs_involutive; reflexivity).
  destruct (count_bits_spec N HN) as (C1 & C2 & _).
  assert (L : forall m, Z.of_nat m <= count_bits (ofZ kz) -> mul_bits (egrp p am b G n) (ofZ kz) (ept P) m (ept (ec_mul p a (N / 2 ^ Z.of_nat m) P)) = Ok (ept (ec_mul p a N P))).
  { induction m as [|m IH]; intro Hm.
    - cbn [mul_bits Z.of_nat]. rewrite Z.pow_0_r, Z.div_1_r. reflexivity.
    - cbn [mul_bits]. assert (Hq : 0 <= N / 2 ^ Z.of_nat (S m)) by (apply Z.div_pos; [lia|apply Z.pow_pos_nonneg; lia]).
      rewrite (dbl_mult p a b am HA HG G n P HP H2) by auto. cbn [bind].
      rewrite is_bit_set_ofZ by lia. cbn [bind]. pose proof (shift_bit N HN (Z.of_nat (S m)) ltac:(lia)) as Hs. replace (Z.of_nat (S m) - 1) with (Z.of_nat m) in Hs by lia. fold N.
      destruct (Z.testbit N (Z.of_nat m)); cbn [Z.b2z] in Hs.
      + rewrite (R1 p a P). rewrite (add_mult p a b am HA HG G n P HP H2) by lia. cbn [bind]. rewrite <- Hs, <- (R1 p a P). apply IH. lia.
      + cbn [bind]. rewrite Z.add_0_r in Hs. rewrite <- Hs. apply IH. lia. }
  specialize (L (Z.to_nat (count_bits (ofZ kz)))). rewrite Cb, Z2Nat.id in L by lia. rewrite (Z.div_small N) in L by lia. rewrite Cb. apply L. lia.
Qed.
