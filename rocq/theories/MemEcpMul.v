(** Memory-level scalar multiplication, while no allocation is refused. *)
From Coq Require Import Znumtheory.
From Verif Require Import Base Lists Bits MpiModel MpiSpec MpiDigits MpiMulModel MpiCanon MpiDivModel MpiDiv MpiAlgModel MpiAlg MpiAlg2 Pk NumTh EcpModel EcSpec EcZ EcpSpec Ecp EcpMul MemModel MemMulModel MemDivModel MemAlgModel MemSpec Mem MemOps MemShift MemLeaf MemMul MemSim MemToom MemMulSafe MemDiv MemDivSafe MemLoc MemGcd MemExp MemInv MemEcpModel MemEcpSpec MemEcp.
Ltac Zify.zify_post_hook ::= idtac.

Lemma coords_locals x : coords x = locals x 3.
Proof. unfold coords, locals. cbn [seq]. repeat f_equal; lia. Qed.
Lemma ok_inj {A} (x y : A) : Ok x = Ok y -> x = y.
Proof. congruence. Qed.
Lemma kbit_mem e s x kz i j (Q : bool -> st -> Prop) : has s x (ofZ kz) -> (i < used (ofZ kz))%nat -> (j < 64)%nat ->
  Q (Z.testbit (Z.abs kz) (pos i j)) s -> wp (kbit_m x i j) e s Q.
Proof.
  intros H Hi Hj K. unfold kbit_m. apply wp_bind. eapply wp_rd_has; [exact H|exact Hi|]. apply wp_ret.
  pose proof (kbit_ok kz i j Hi Hj) as E. unfold kbit in E. rewrite (proj2 (Nat.ltb_lt _ _) Hi) in E. apply ok_inj in E. rewrite E. exact K.
Qed.
(** a fresh point *)
Lemma pt_init_ok e n s : (forall k, grant e k = true) -> wp (pt_init_m n) e s (fun rc s' => rc = 0 /\ point s' n None /\ (tick s <= tick s')%nat /\
  (forall y, ~ (n <= y < n + 3)%nat -> mem s' y = mem s y)).
Proof.
  intro G. unfold pt_init_m. rewrite coords_locals. apply wp_check. eapply wp_mono; [apply init_list_ok; [apply seq_NoDup|intros x []]|].
  intros rc s1 (M & T & [(-> & V & _)|(-> & S & _)]); [|destruct (fed _ _ _ G S)]. rewrite Z.eqb_refl.
  assert (M1 : forall y, ~ (n <= y < n + 3)%nat -> mem s1 y = mem s y) by (intros y Hy; apply M; [rewrite in_locals; auto|auto]). clear M.
  assert (V1 : forall i, (i < 3)%nat -> usable s1 (n + i)) by (intros i Hi; eapply has_usable; apply (V (n + i)%nat); apply in_locals; lia).
  apply wp_bind. unfold set_zero_m. apply wp_bind.
  eapply wp_mono; [apply set_int_leaf; [apply usable_live; rewrite <- (Nat.add_0_r n); apply V1; lia|lia]|]. intros rc s2 L2.
  apply wp_bind. eapply wp_mono; [apply set_int_leaf; [apply usable_live|lia]|].
  { eapply usable_same; [|apply (V1 1%nat); lia]. apply L2. lia. }
  intros rc' s3 L3. apply wp_bind. eapply wp_mono; [apply set_int_leaf; [apply usable_live|lia]|].
  { eapply usable_same; [|apply (V1 2%nat); lia]. transitivity (mem s2 (n + 2)); [apply L3; lia|apply L2; lia]. }
  intros rc'' s4 L4. apply wp_ret. apply wp_ret. split; auto.
  assert (A : forall e' r v s s' rc, (forall k, grant e' k = true) -> leaf e' r true v s rc s' -> has s' r v /\ (forall x, x <> r -> mem s' x = mem s x) /\ (tick s <= tick s')%nat).
  { clear. intros e' r v s s' rc G L. destruct L as (L1 & L2 & L3). destruct L3 as [(_ & L3 & _)|(_ & L3 & _)]; [auto|destruct (fed _ _ _ G L3)]. }
  destruct (A _ _ _ _ _ _ G L2) as (H2 & F2 & T2), (A _ _ _ _ _ _ G L3) as (H3 & F3 & T3), (A _ _ _ _ _ _ G L4) as (H4 & F4 & T4).
  split; [|split; [lia|intros y Hy; rewrite F4, F3, F2 by lia; auto]]. split; [|split].
  - eapply has_same; [rewrite F4, F3 by lia; reflexivity|exact H2].
  - eapply has_same; [rewrite F4 by lia; reflexivity|exact H3].
  - exact H4.
Qed.

Lemma pt_clear_ok e y s : usable_pt s y -> wp (pt_clear_m y) e s (fun _ s' => tick s' = tick s /\ (forall i, (i < 3)%nat -> mem s' (y + i) = Some void) /\
  (forall z, ~ (y <= z < y + 3)%nat -> mem s' z = mem s z)).
Proof.
  intros (U1 & U2 & U3). unfold pt_clear_m. eapply wp_mono; [apply clear_list_ok|].
  - intros z [<-|[<-|[<-|[]]]]; apply usable_live; auto.
  - rewrite coords_locals. intros t s' (A1 & A2 & A3). split; auto. split; [intros i Hi; apply A1, in_locals; lia|]. intros z Hz. apply A2. rewrite in_locals. auto.
Qed.
Lemma clear_win_ok e l : forall s, (forall y, In y l -> usable_pt s y) -> (forall y z, In y l -> In z l -> y = z \/ (y + 3 <= z \/ z + 3 <= y)%nat) -> NoDup l ->
  wp (pt_clear_list l) e s (fun _ s' => tick s' = tick s /\ (forall y i, In y l -> (i < 3)%nat -> mem s' (y + i) = Some void) /\
    (forall z, (forall y, In y l -> ~ (y <= z < y + 3)%nat) -> mem s' z = mem s z)).
Proof.
  induction l as [|y l IH]; intros s U D ND; cbn [pt_clear_list].
  - apply wp_ret. split; auto. split; [intros y i []|]. auto.
  - inversion ND as [|? ? NI ND']; subst. apply wp_bind. eapply wp_mono; [apply pt_clear_ok; apply U; left; auto|]. intros t s1 (T1 & V1 & F1).
    assert (Ap : forall z, In z l -> (y + 3 <= z \/ z + 3 <= y)%nat).
    { intros z Hz. destruct (D y z) as [->|H]; [left; auto|right; auto|contradiction|exact H]. }
    eapply wp_mono; [apply IH|].
    + intros z Hz. eapply usable_pt_same; [|apply U; right; auto]. intros i Hi. apply F1. specialize (Ap z Hz). lia.
    + intros z w Hz Hw. apply D; right; auto.
    + auto.
    + intros t' s2 (T2 & V2 & F2). split; [lia|]. split.
      * intros z i [<-|Hz] Hi; [|apply V2; auto]. rewrite F2; [apply V1; auto|]. intros w Hw. specialize (Ap w Hw). lia.
      * intros z Hz. rewrite F2; [apply F1; apply Hz; left; auto|]. intros w Hw. apply Hz. right. auto.
Qed.

Section Curve.
Variables (p a b : Z) (am : mpi).
Hypothesis HA : a_rep am a.
Hypothesis HG : good_curve p a b.
Variables (BG : ecpoint) (N0 : Z).
Variable P : ecpoint.
Hypothesis HP : on_curve p a b P.
Hypothesis N2 : no_order2 p a P.
Local Notation M j := (ec_mul p a j P).
Variables (e : env) (n x g : nat) (s0 : st).
Hypothesis GR : forall k, grant e k = true.
Hypothesis Lx : (x + 2 < n)%nat.
Hypothesis Lg : (g + 6 < n)%nat.
Hypothesis Px : point s0 x P.
Hypothesis Pg : group s0 g p am b BG N0.

Lemma M_on j : 0 <= j -> on_curve p a b (M j).
Proof. intro H. apply (ec_mul_on p a b HG); auto. Qed.
Lemma M_2 j k : 0 <= j -> ~ (M j = M k /\ exists x, M j = Some (x, 0)).
Proof. intros H [_ [z E]]. apply (N2 j z H E). Qed.
Lemma M_add j k : 0 <= j -> 0 <= k -> ec_add p a (M j) (M k) = M (j + k).
Proof. intros. rewrite (ec_mul_add p a b HG) by auto. reflexivity. Qed.
Lemma M_1 : P = M 1.
Proof. symmetry. apply ec_mul_1. Qed.

(** The caller's objects are as at the start; r holds [q] P. *)
Definition base (q : Z) (s : st) : Prop :=
  calm (n + 27) s /\ (forall y, (y < n)%nat -> mem s y = mem s0 y) /\ (tick s0 <= tick s)%nat /\ point s n (M q).
Definition winok (k : nat) (s : st) : Prop := forall i, (i < k)%nat -> point s (win_at n i) (M (8 + Z.of_nat i)).
Definition inv_ (q : Z) (s : st) : Prop := base q s /\ winok 8 s.

Lemma base_x q s : base q s -> point s x P.
Proof. intros (_ & F & _). eapply point_same; [|exact Px]. intros; apply F; lia. Qed.
Lemma base_g q s : base q s -> group s g p am b BG N0.
Proof. intros (_ & F & _). eapply group_same; [|exact Pg]. intros; apply F; lia. Qed.
(** the result goes to r *)
Lemma step_r q q' s rc s' : inv_ q s -> result (n + 27) n (M q') s rc s' -> rc = 0 /\ inv_ q' s'.
Proof.
  intros ((C & F & T & _) & W) (-> & V & C' & T' & F'). split; auto. split; [split; [auto|split; [intros y Hy; rewrite F' by lia; auto|split; [lia|auto]]]|].
  intros i Hi. eapply point_same; [|apply W; auto]. intros j Hj. unfold win_at. apply F'; lia.
Qed.
Lemma dbl_if_mem q s (Q : Z -> st -> Prop) : inv_ q s -> 0 <= q -> (forall s', inv_ (2 * q) s' -> Q 0 s') -> wp (dbl_if_m n g (q =? 0)) e s Q.
Proof.
  intros I Hq K. unfold dbl_if_m. destruct (Z.eqb_spec q 0) as [->|_]; [apply wp_ret, K; exact I|].
  pose proof (proj1 I) as Bs. pose proof Bs as (C & F & T & V). eapply wp_mono; [eapply (dbl_mem p a b am HA HG BG N0 e s (n + 27) n n g (M q)); auto|].
  - lia.
  - lia.
  - lia.
  - eapply point_usable; eauto.
  - eapply base_g; eauto.
  - left. auto.
  - apply M_on; auto.
  - rewrite M_add by auto. replace (q + q) with (2 * q) by lia. intros rc s' R. destruct (step_r _ _ _ _ _ I R) as [-> J]. auto.
Qed.
Lemma add_if_mem q j y s (Q : Z -> st -> Prop) : inv_ q s -> 0 <= q -> 0 <= j -> point s y (M j) -> (y + 2 < n \/ n + 3 <= y)%nat -> (y + 2 < n + 27)%nat ->
  (forall s', inv_ (q + j) s' -> Q 0 s') -> wp (add_if_m n y g (q =? 0)) e s Q.
Proof.
  intros I Hq Hj Py D Ly K. pose proof (proj1 I) as Bs. pose proof Bs as (C & F & T & V). unfold add_if_m. destruct (Z.eqb_spec q 0) as [->|_].
  - eapply wp_mono; [apply (pt_copy_ok e s (n + 27) n y (M j)); auto|].
    + lia.
    + eapply point_usable; eauto.
    + lia.
    + intros rc s' R. destruct (step_r _ j _ _ _ I R) as [-> J]. apply K. exact J.
  - eapply wp_mono; [eapply (add_mem p a b am HA HG BG N0 e s (n + 27) n n y g (M q) (M j)); auto|].
    + lia.
    + lia.
    + lia.
    + eapply point_usable; eauto.
    + eapply base_g; eauto.
    + left. auto.
    + red. lia.
    + apply M_on; auto.
    + apply M_on; auto.
    + apply M_2; auto.
    + rewrite M_add by auto. intros rc s' R. destruct (step_r _ _ _ _ _ I R) as [-> J]. auto.
Qed.

(** * The window *)
Definition started (k : nat) (s : st) : Prop :=
  calm (n + 3 + 3 * k) s /\ (forall y, (y < n)%nat -> mem s y = mem s0 y) /\ (tick s0 <= tick s)%nat /\ point s n None /\ (forall i, (i < k)%nat -> point s (win_at n i) None).
Lemma win_init_ok k : forall i s, started i s -> wp (win_init_m n k i) e s (fun rc s' => rc = 0 /\ started (i + k) s').
Proof.
  induction k as [|k IH]; intros i s St; cbn [win_init_m].
  - apply wp_ret. rewrite Nat.add_0_r. auto.
  - apply wp_bind. eapply wp_mono; [apply pt_init_ok; exact GR|]. intros rc s1 (-> & V & T & F). cbn [Z.eqb].
    destruct St as (C & F0 & T0 & V0 & W0). replace (i + S k)%nat with (S i + k)%nat by lia. apply IH. unfold win_at in *.
    split; [intros y Hy; rewrite F by lia; apply C; lia|]. split; [intros y Hy; rewrite F by lia; auto|]. split; [lia|]. split.
    + eapply point_same; [|exact V0]. intros j Hj. apply F. lia.
    + intros j Hj. destruct (Nat.eq_dec j i) as [->|Nj]; [exact V|]. eapply point_same; [|apply W0; lia]. intros l Hl. unfold win_at. apply F. lia.
Qed.
(** part of the window is computed *)
Definition partial (q : Z) (k : nat) (s : st) : Prop :=
  calm (n + 27) s /\ (forall y, (y < n)%nat -> mem s y = mem s0 y) /\ (tick s0 <= tick s)%nat /\ point s n (M 0) /\
  point s (win_at n 0) (M q) /\ (forall i, (0 < i <= k)%nat -> point s (win_at n i) (M (8 + Z.of_nat i))) /\ (forall i, (i < 8)%nat -> usable_pt s (win_at n i)).
Lemma partial_0 q s q' rc s' : partial q 0 s -> result (n + 27) (win_at n 0) (M q') s rc s' -> rc = 0 /\ partial q' 0 s'.
Proof.
  unfold win_at. intros (C & F & T & V & V0 & W & U) (-> & V' & C' & T' & F'). split; auto.
  split; auto. split; [intros y Hy; rewrite F' by lia; auto|]. split; [lia|]. split; [eapply point_same; [|exact V]; intros; apply F'; lia|]. split; auto. split; [intros i Hi; lia|].
  intros i Hi. destruct (Nat.eq_dec i 0) as [->|Ni]; [eapply point_usable; exact V'|]. eapply usable_pt_same; [|apply U; auto]. intros j Hj. unfold win_at. apply F'; lia.
Qed.
Lemma partial_dbl q s f Q : partial q 0 s -> 0 <= q -> (forall s', partial (2 * q) 0 s' -> wp f e s' Q) -> wp (chk ecp_dbl_m (n + 27) (win_at n 0) (win_at n 0) g; f) e s Q.
Proof.
  intros I Hq K. apply wp_check. pose proof I as (C & F & T & V & V0 & W & U). eapply wp_mono; [eapply (dbl_mem p a b am HA HG BG N0 e s (n + 27) (win_at n 0) (win_at n 0) g (M q)); auto|].
  - unfold win_at. lia.
  - unfold win_at. lia.
  - lia.
  - apply U. lia.
  - eapply group_same; [|exact Pg]. intros; apply F; lia.
  - left. auto.
  - apply M_on; auto.
  - rewrite M_add by auto. replace (q + q) with (2 * q) by lia. intros rc s' R. destruct (partial_0 _ _ _ _ _ I R) as [-> J]. cbn [Z.eqb]. auto.
Qed.
Lemma win_next_mem k : forall i s, partial 8 i s -> (i + k = 7)%nat -> wp (win_next_m n x g k i) e s (fun rc s' => rc = 0 /\ partial 8 7 s').
Proof.
  induction k as [|k IH]; intros i s I E; cbn [win_next_m].
  - apply wp_ret. replace i with 7%nat in I by lia. auto.
  - apply wp_check. pose proof I as (C & F & T & V & V0 & W & U).
    assert (Pi : point s (win_at n i) (M (8 + Z.of_nat i))) by (destruct (Nat.eq_dec i 0) as [->|Ni]; [exact V0|apply W; lia]).
    eapply wp_mono; [eapply (add_mem p a b am HA HG BG N0 e s (n + 27) (win_at n (S i)) (win_at n i) x g (M (8 + Z.of_nat i)) (M 1)); auto|].
    + unfold win_at. lia.
    + unfold win_at. lia.
    + lia.
    + lia.
    + apply U. lia.
    + rewrite <- M_1. eapply point_same; [|exact Px]. intros; apply F; lia.
    + eapply group_same; [|exact Pg]. intros; apply F; lia.
    + unfold win_at. red. lia.
    + unfold win_at. red. lia.
    + apply M_on. lia.
    + apply M_on. lia.
    + apply M_2. lia.
    + rewrite M_add by lia. intros rc s' (-> & V' & C' & T' & F'). cbn [Z.eqb]. apply IH; [|lia]. unfold win_at in *.
      split; auto. split; [intros y Hy; rewrite F' by lia; auto|]. split; [lia|]. split; [eapply point_same; [|exact V]; intros; unfold win_at; apply F'; lia|].
      split; [eapply point_same; [|exact V0]; intros; unfold win_at; apply F'; lia|]. split.
      * intros j Hj. destruct (Nat.eq_dec j (S i)) as [->|Nj]; [replace (8 + Z.of_nat (S i)) with (8 + Z.of_nat i + 1) by lia; exact V'|]. eapply point_same; [|apply W; lia]. intros l Hl. unfold win_at; apply F'; lia.
      * intros j Hj. destruct (Nat.eq_dec j (S i)) as [->|Nj]; [eapply point_usable; exact V'|]. eapply usable_pt_same; [|apply U; auto]. intros l Hl. unfold win_at; apply F'; lia.
Qed.
Lemma win_mem s : started 8 s -> wp (win_m n x g) e s (fun rc s' => rc = 0 /\ inv_ 0 s').
Proof.
  intros (C & F & T & V & W). unfold win_m. cbv zeta.
  assert (I : forall rc s', result (n + 27) (win_at n 0) (M 1) s rc s' -> rc = 0 /\ partial 1 0 s').
  { unfold win_at. intros rc s' (-> & V' & C' & T' & F'). split; auto. split; auto. split; [intros y Hy; rewrite F' by lia; auto|]. split; [lia|].
    split; [eapply point_same; [|exact V]; intros; unfold win_at; apply F'; lia|]. split; auto. split; [intros i Hi; lia|].
    intros i Hi. destruct (Nat.eq_dec i 0) as [->|Ni]; [eapply point_usable; exact V'|]. eapply usable_pt_same; [|eapply point_usable; apply W; exact Hi]. intros j Hj. unfold win_at; apply F'; lia. }
  apply wp_check. eapply wp_mono; [apply (pt_copy_ok e s (n + 27) (win_at n 0) x (M 1)); auto|].
  - replace (n + 27)%nat with (n + 3 + 3 * 8)%nat by lia. exact C.
  - unfold win_at. lia.
  - lia.
  - eapply point_usable. apply W. lia.
  - rewrite <- M_1. eapply point_same; [|exact Px]. intros; apply F; lia.
  - unfold win_at. lia.
  - intros rc s1 R. apply I in R. destruct R as [-> I1]. cbn [Z.eqb].
    eapply partial_dbl; [exact I1|lia|]. intros s2 I2. eapply partial_dbl; [exact I2|lia|]. intros s3 I3. eapply partial_dbl; [exact I3|lia|]. intros s4 I4.
    eapply wp_mono; [apply win_next_mem; [exact I4|reflexivity]|]. intros rc s5 (-> & C5 & F5 & T5 & V5 & V05 & W5 & _). split; auto. split; [split; auto|].
    intros i Hi. destruct (Nat.eq_dec i 0) as [->|Ni]; [exact V05|apply W5; lia].
Qed.

(** * The loop *)
Variables (kx pr : nat) (kz : Z).
Hypothesis Lk : (kx < n)%nat.
Hypothesis Pk : has s0 kx (ofZ kz).
Local Notation N := (Z.abs kz).
Local Notation u := (used (ofZ kz)).
Lemma inv_k q s : inv_ q s -> has s kx (ofZ kz).
Proof. intros ((_ & F & _) & _). eapply has_same; [|exact Pk]. apply F. auto. Qed.
Lemma win_round_mem f paf w i j m s Q : (i < u)%nat -> (j < 64)%nat -> 0 < pos i j -> 0 <= m -> 0 < w < 8 -> paf = (m =? 0) ->
  N / 2 ^ pos i j = m + w -> inv_ m s ->
  (forall i' j' w' s', (i' < u)%nat -> (j' < 64)%nat -> pos i' j' = pos i j - 1 -> (65 * i' + j' < 65 * i + j)%nat ->
    2 * w <= w' <= 2 * w + 1 -> N / 2 ^ pos i' j' = 2 * m + w' -> inv_ (2 * m) s' -> wp (win_bits_m f n kx g paf w' i' j') e s' Q) ->
  wp (win_bits_m (S f) n kx g paf w i j) e s Q.
Proof.
  intros Hi Hj Hs Hm Hw -> Hc I K. pose proof (b2z_range (Z.testbit N (pos i j - 1))) as Bb. pose proof (shift_bit N (Z.abs_nonneg kz) (pos i j) Hs) as Sb. rewrite Hc in Sb.
  assert (G0 : forall i' j', (i' < u)%nat -> (j' < 64)%nat -> pos i' j' = pos i j - 1 -> (65 * i' + j' < 65 * i + j)%nat ->
    wp (run rc <- dbl_if_m n g (m =? 0); if negb (rc =? 0) then ret (rc, (w, i', j')) else
          run b <- kbit_m kx i' j'; win_bits_m f n kx g (m =? 0) (Z.lor (Z.shiftl w 1) (if (b : bool) then 1 else 0)) i' j') e s Q).
  { intros i' j' Hi' Hj' Ep L. apply wp_bind. eapply dbl_if_mem; [exact I|exact Hm|]. intros s1 I1. cbn [Z.eqb negb].
    apply wp_bind. eapply kbit_mem; [eapply inv_k; exact I1|exact Hi'|exact Hj'|]. rewrite lor_shift. apply K; auto.
    - rewrite Ep. lia.
    - rewrite Ep. rewrite Sb. ring. }
  cbn [win_bits_m]. destruct (Z.ltb_spec w 8) as [_|L]; [|clear - L Hw; lia].
  destruct j as [|j].
  - destruct i as [|i]; [unfold pos in Hs; clear - Hs; lia|]. apply wp_bind, wp_ret. cbn [Nat.sub]. apply G0; unfold pos; clear - Hi; lia.
  - apply wp_bind, wp_ret. cbn [Nat.sub]. rewrite Nat.sub_0_r. apply G0; unfold pos; clear - Hi Hj; lia.
Qed.
Lemma win_bits_mem i j m s (Q : Z * (Z * nat * nat) -> st -> Prop) : (i < u)%nat -> (j < 64)%nat -> 3 <= pos i j -> 0 <= m -> N / 2 ^ pos i j = m + 1 -> inv_ m s ->
  (forall w i' j' s', (i' < u)%nat -> (j' < 64)%nat -> (65 * i' + j' < 65 * i + j)%nat -> 8 <= w < 16 -> N / 2 ^ pos i' j' = 8 * m + w -> inv_ (8 * m) s' -> Q (0, (w, i', j')) s') ->
  wp (win_bits_m 5 n kx g (m =? 0) 1 i j) e s Q.
Proof.
  intros Hi Hj Hs Hm Hc I K.
  eapply (win_round_mem 4 _ 1 i j m); [exact Hi|exact Hj|clear - Hs; lia|exact Hm|lia|reflexivity|exact Hc|exact I|]. intros i1 j1 w1 s1 Hi1 Hj1 Ep1 L1 W1 C1 I1.
  eapply (win_round_mem 3 _ w1 i1 j1 (2 * m)); [exact Hi1|exact Hj1|clear - Hs Ep1; lia|clear - Hm; lia|clear - W1; lia|symmetry; apply paf2|exact C1|exact I1|]. intros i2 j2 w2 s2 Hi2 Hj2 Ep2 L2 W2 C2 I2.
  eapply (win_round_mem 2 _ w2 i2 j2 (2 * (2 * m))); [exact Hi2|exact Hj2|clear - Hs Ep1 Ep2; lia|clear - Hm; lia|clear - W1 W2; lia|rewrite !paf2; reflexivity|exact C2|exact I2|]. intros i3 j3 w3 s3 Hi3 Hj3 Ep3 L3 W3 C3 I3.
  cbn [win_bits_m]. destruct (Z.ltb_spec w3 8) as [L|_]; [clear - L W1 W2 W3; lia|]. apply wp_ret.
  replace (2 * (2 * (2 * m))) with (8 * m) in C3, I3 by ring. apply K; auto; clear - L1 L2 L3 W1 W2 W3; lia.
Qed.
Lemma mul_loop_mem : forall f i j s, (65 * i + j < f)%nat -> (i < u /\ j <= 64 \/ i = u /\ j = 0)%nat -> inv_ (N / 2 ^ pos i j) s ->
  wp (mul_loop_m f n kx x g (N / 2 ^ pos i j =? 0) i j) e s (fun rc s' => rc = 0 /\ inv_ N s').
Proof.
  induction f as [|f IH]; intros i j s Hf HI I; [lia|]. cbn [mul_loop_m]. assert (Hp0 : 0 <= pos i j) by (unfold pos; lia).
  set (q := N / 2 ^ pos i j) in *. assert (Hq : 0 <= q) by (apply Z.div_pos; [lia|apply Z.pow_pos_nonneg; lia]).
  destruct j as [|j].
  - destruct i as [|i].
    + apply wp_ret. split; auto. replace N with q; [exact I|]. unfold q, pos. rewrite Z.pow_0_r, Z.div_1_r. reflexivity.
    + assert (E : pos (S i) 0 = pos i 64) by (unfold pos; lia). unfold q in *. rewrite E in *. apply IH; try lia. exact I.
  - assert (Hi : (i < u)%nat) by lia. assert (Hj : (j < 64)%nat) by lia.
    apply wp_check. eapply dbl_if_mem; [exact I|exact Hq|]. intros s1 I1. cbn [Z.eqb]. apply wp_bind. eapply kbit_mem; [eapply inv_k; exact I1|exact Hi|exact Hj|].
    assert (Es : pos i j = pos i (S j) - 1) by (unfold pos; lia).
    assert (Hs : N / 2 ^ pos i j = 2 * q + Z.b2z (Z.testbit N (pos i j))) by (rewrite Es, shift_bit by (unfold pos; lia); reflexivity).
    destruct (Z.testbit N (pos i j)) eqn:Eb; cbn [Z.b2z] in Hs.
    + destruct (negb (Nat.eqb i 0) || Nat.leb 3 j)%bool eqn:Ew.
      * assert (H3 : 3 <= pos i j).
        { unfold pos. apply Bool.orb_prop in Ew. destruct Ew as [Ew|Ew]; [apply Bool.negb_true_iff, Nat.eqb_neq in Ew|apply Nat.leb_le in Ew]; lia. }
        apply wp_bind. rewrite <- (paf2 q). eapply (win_bits_mem i j (2 * q)); auto; [lia|].
        intros w i' j' s2 Hi' Hj' L Hw C I2. cbn [Z.eqb negb]. apply wp_check.
        replace (2 * q =? 0) with (8 * (2 * q) =? 0) by (clear; destruct (Z.eqb_spec (2 * q) 0), (Z.eqb_spec (8 * (2 * q)) 0); auto; lia).
        rewrite (land7 w Hw).
        eapply (add_if_mem _ w); [exact I2|clear - Hq; lia|clear - Hw; lia|..].
        { replace w with (8 + Z.of_nat (Z.to_nat (w - 8))) at 2 by (clear - Hw; lia). apply (proj2 I2). clear - Hw; lia. }
        { unfold win_at. clear. lia. }
        { unfold win_at. clear - Hw. lia. }
        intros s3 I3. cbn [Z.eqb]. rewrite <- C in I3.
        replace false with (N / 2 ^ pos i' j' =? 0) by (apply Z.eqb_neq; clear - C Hw Hq; lia). apply IH; [clear - L Hf; lia|clear - Hi' Hj'; lia|exact I3].
      * apply wp_check. rewrite <- (paf2 q). eapply (add_if_mem _ 1); [exact I1|clear - Hq; lia|lia|..].
        { rewrite <- M_1. eapply base_x. exact (proj1 I1). }
        { left. exact Lx. }
        { clear - Lx. lia. }
        intros s3 I3. cbn [Z.eqb]. rewrite <- Hs in I3.
        replace false with (N / 2 ^ pos i j =? 0) by (apply Z.eqb_neq; clear - Hs Hq; lia). apply IH; [clear - Hf; lia|clear - Hi Hj; lia|exact I3].
    + rewrite Z.add_0_r in Hs. rewrite <- (paf2 q). rewrite <- Hs in I1 |- *. apply IH; [clear - Hf; lia|clear - Hi Hj; lia|exact I1].
Qed.
End Curve.

Lemma pt_swap_ok e s r x P (Q : unit -> st -> Prop) : usable_pt s r -> point s x P -> (r + 2 < x \/ x + 2 < r)%nat ->
  (forall s', point s' r P -> usable_pt s' x -> tick s' = tick s -> (forall y, ~ (r <= y < r + 3)%nat -> ~ (x <= y < x + 3)%nat -> mem s' y = mem s y) -> Q tt s') ->
  wp (pt_swap_m r x) e s Q.
Proof.
  intros (U1 & U2 & U3) (P1 & P2 & P3) D K. unfold pt_swap_m.
  apply wp_bind. apply swap_ok; [apply usable_live; exact U1|eapply has_live; exact P1|]. intros s1 S1 S2 S3 S4.
  apply wp_bind. apply swap_ok; [unfold live; rewrite S3 by lia; apply usable_live; exact U2|unfold live; rewrite S3 by lia; eapply has_live; exact P2|]. intros s2 A1 A2 A3 A4.
  apply swap_ok; [unfold live; rewrite A3, S3 by lia; apply usable_live; exact U3|unfold live; rewrite A3, S3 by lia; eapply has_live; exact P3|]. intros s3 B1 B2 B3 B4.
  apply K.
  - split; [|split].
    + unfold has. rewrite B3, A3, S1 by lia. exact P1.
    + unfold has. rewrite B3, A1, S3 by lia. exact P2.
    + unfold has. rewrite B1, A3, S3 by lia. exact P3.
  - split; [|split].
    + unfold usable, has. rewrite B3, A3, S2 by lia. exact U1.
    + unfold usable, has. rewrite B3, A2, S3 by lia. exact U2.
    + unfold usable, has. rewrite B2, A3, S3 by lia. exact U3.
  - lia.
  - intros y H1 H2. rewrite B3, A3, S3 by lia. reflexivity.
Qed.
Lemma in_win n y : In y (map (win_at n) (seq 0 8)) <-> exists i, (i < 8)%nat /\ y = win_at n i.
Proof. rewrite in_map_iff. split; [intros (i & <- & H); apply in_seq in H; exists i; split; [lia|auto]|intros (i & H & ->); exists i; split; auto; apply in_seq; lia]. Qed.
Theorem mul_mem p a b am BG N0 e s n pr x k g P kz : a_rep am a -> good_curve p a b -> (forall k, grant e k = true) -> calm n s ->
  (pr + 2 < n)%nat -> (x + 2 < n)%nat -> (k < n)%nat -> (g + 6 < n)%nat -> usable_pt s pr -> point s x P -> has s k (ofZ kz) -> group s g p am b BG N0 ->
  same_or_apart pr x -> on_curve p a b P -> no_order2 p a P ->
  wp (ecp_mul_m n pr x k g) e s (result n pr (ec_mul p a (Z.abs kz) P) s).
Proof.
  intros HA HG GR C Lp Lx Lk Lg Up Px Pk Pg SA HP N2. unfold ecp_mul_m. apply wp_bind. eapply pt_zero_ok; [exact Px|].
  destruct (match P with None => true | Some _ => false end) eqn:EP.
  { destruct P as [Q|]; [discriminate|]. rewrite ec_mul_None. apply pt_move_ok; auto. }
  clear EP. apply wp_check. eapply wp_mono; [apply pt_init_ok; exact GR|]. intros rc s1 (-> & V1 & T1 & F1). cbn [Z.eqb].
  apply wp_finally.
  assert (S0 : forall s', mem s' = mem s1 -> (tick s1 <= tick s')%nat -> started n s 0 s').
  { intros s' Em Et. split; [intros y Hy; rewrite Em, F1 by lia; apply C; lia|]. split; [intros y Hy; rewrite Em; apply F1; lia|]. split; [lia|].
    split; [eapply point_same; [|exact V1]; intros; rewrite Em; auto|]. intros i Hi. lia. }
  apply wp_bind, wp_alloc; intro G; [|rewrite GR in G; discriminate]. clear G.
  apply wp_check. eapply wp_mono; [apply (win_init_ok e n x g s GR Lx Lg 8 0); apply S0; [reflexivity|cbn; lia]|]. cbn [Nat.add Z.eqb].
  intros rc s2 (-> & S2). cbn [Z.eqb]. clear S0. apply wp_finally.
  apply wp_check. eapply wp_mono; [apply (win_mem p a b am HA HG BG N0 P HP N2 e n x g s GR Lx Lg Px Pg); exact S2|]. intros rc s3 (-> & I3). cbn [Z.eqb].
  assert (Hk : has s3 k (ofZ kz)) by (eapply inv_k; eauto). destruct (has_elim _ _ _ Hk) as (Kl & Ku & _).
  apply wp_bind. apply wp_get; [exact Kl|]. rewrite Ku.
  apply wp_check. eapply wp_mono.
  { pose proof (mul_loop_mem p a b am HA HG BG N0 P HP N2 e n x g s GR Lx Lg Px Pg k kz Lk Pk (S (65 * used (ofZ kz))) (used (ofZ kz)) 0 s3) as H.
    rewrite shift_all in H. apply H; [lia|lia|exact I3]. }
  intros rc s4 (-> & (C4 & F4 & T4 & V4) & W4). cbn [Z.eqb].
  apply wp_bind. eapply pt_swap_ok; [eapply usable_pt_same; [|exact Up]; intros; apply F4; lia|exact V4|lia|]. intros s5 V5 U5 T5 F5.
  apply wp_ret. eapply wp_mono; [apply clear_win_ok|].
  - intros y Hy. apply in_win in Hy. destruct Hy as (i & Hi & ->). eapply usable_pt_same; [|eapply point_usable; apply W4; exact Hi]. intros j Hj. apply F5; unfold win_at; lia.
  - intros y z Hy Hz. apply in_win in Hy, Hz. destruct Hy as (i & Hi & ->), Hz as (j & Hj & ->). unfold win_at. lia.
  - apply FinFun.Injective_map_NoDup; [|apply seq_NoDup]. intros i j. unfold win_at. lia.
  - intros t s6 (T6 & V6 & F6).
    assert (O6 : forall z, (z < n + 3 \/ n + 27 <= z)%nat -> mem s6 z = mem s5 z).
    { intros z Hz. apply F6. intros y Hy. apply in_win in Hy. destruct Hy as (i & Hi & ->). unfold win_at. lia. }
    eapply wp_mono; [apply pt_clear_ok; eapply usable_pt_same; [|exact U5]; intros; apply O6; lia|].
    intros t' s7 (T7 & V7 & F7). split; auto. split; [|split; [|split]].
    + eapply point_same; [|exact V5]. intros j Hj. rewrite F7, O6 by lia. reflexivity.
    + intros y Hy. destruct (Nat.lt_ge_cases y (n + 3)) as [L1|L1].
      { right. replace y with (n + (y - n))%nat by lia. apply V7. lia. }
      rewrite F7 by lia. destruct (Nat.lt_ge_cases y (n + 27)) as [L2|L2].
      { right. replace y with (win_at n ((y - n - 3) / 3) + (y - n - 3) mod 3)%nat.
        - apply V6; [apply in_win; exists ((y - n - 3) / 3)%nat; split; auto|]; [apply Nat.div_lt_upper_bound; lia|apply Nat.mod_upper_bound; lia].
        - unfold win_at. pose proof (Nat.div_mod (y - n - 3) 3 ltac:(lia)). lia. }
      rewrite O6, F5 by lia. apply C4. lia.
    + lia.
    + intros y Hy Ny. rewrite F7, O6, F5 by lia. apply F4. lia.
Qed.
