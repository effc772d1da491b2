(** Memory-level greatest common divisor and least common multiple:
    src/mpi/mpi_gcd.c, src/mpi/mpi_lcm.c. *)
From Verif Require Import Base Lists Bits MpiModel MpiSpec MpiDigits MpiMulModel MpiCanon MpiDivModel MpiDiv MpiAlgModel MpiAlg MpiAlg2 MemModel MemMulModel MemDivModel MemAlgModel MemSpec Mem MemOps MemShift MemLeaf MemMul MemSim MemMulSafe MemDiv MemDivSafe MemLoc.
Ltac Zify.zify_post_hook ::= idtac.

(** * Trailing zero bits *)
Lemma skipn_nth {A} (d : A) k : forall l, (k < length l)%nat -> skipn k l = nth k l d :: skipn (S k) l.
Proof. induction k as [|k IH]; intros [|x l] H; cbn [length] in H; try lia; [reflexivity|]. cbn [skipn nth]. rewrite IH by lia. reflexivity. Qed.
Lemma skip_ok e s x v (Q : nat -> st -> Prop) : has s x v -> forall l i, l = skipn i (dg v) -> val l <> 0 ->
  (forall j, (i + j < used v)%nat -> lsb_list l 0 = 64 * Z.of_nat j + ctz 64 0 (nth (i + j) (dg v) 0) -> Q (i + j)%nat s) ->
  wp (skip_m x (length l) i) e s Q.
Proof.
  intro H. induction l as [|d l IH]; intros i E N K; [contradiction N; reflexivity|].
  assert (Hi : (i < used v)%nat). { unfold used. destruct (Nat.lt_ge_cases i (length (dg v))) as [|G]; auto. rewrite skipn_all2 in E by auto. discriminate. }
  rewrite (skipn_nth 0) in E by exact Hi. injection E as Ed El. symmetry in Ed.
  cbn [length skip_m]. apply wp_bind. eapply wp_rd_has; eauto. rewrite Ed. cbn [lsb_list] in K. destruct (Z.eqb_spec d 0) as [->|D].
  - apply IH; auto.
    + cbn [val] in N. intro Z0. apply N. rewrite Z0. reflexivity.
    + intros j Hj Ej. rewrite Nat.add_succ_comm in Hj, Ej |- *. apply K; auto. rewrite Ej. clear. lia.
  - apply wp_ret. rewrite <- (Nat.add_0_r i). apply K; [lia|]. rewrite Nat.add_0_r, Ed. reflexivity.
Qed.
Lemma lsb_m_ok e s x z (Q : Z -> st -> Prop) : has s x (ofZ z) -> 0 < z -> Q (lsb (ofZ z) 0) s -> wp (lsb_m x) e s Q.
Proof.
  intros H P K. apply wp_bind. destruct (has_elim _ _ _ H) as (L & U & _). apply wp_get; auto. rewrite U. apply wp_bind.
  eapply (skip_ok e s x (ofZ z) _ H (dg (ofZ z)) 0); [reflexivity|rewrite ofZ_val; lia|].
  intros j Hj E. cbn [Nat.add] in *. apply wp_bind. eapply wp_rd_has; eauto. apply wp_ret. rewrite <- E. exact K.
Qed.
Lemma lsb_m_zero e s x (Q : Z -> st -> Prop) : has s x (ofZ 0) -> (1 <= len s x)%nat -> (forall j, 0 <= j -> Q j s) -> wp (lsb_m x) e s Q.
Proof.
  intros H P K. apply wp_bind. destruct (has_elim _ _ _ H) as (L & U & _). apply wp_get; auto. rewrite U. change (used (ofZ 0)) with 0%nat. cbn [skip_m]. apply wp_bind. apply wp_ret.
  apply wp_bind. apply wp_rd; auto. apply wp_ret. apply K. pose proof (ctz_nonneg 64 0 (nth 0 (dat s x) 0)). lia.
Qed.
(** what the callers need of it *)
Lemma lsb_m_any e s x z (Q : Z -> st -> Prop) : has s x (ofZ z) -> 0 <= z -> (1 <= len s x)%nat -> (forall j o, 0 <= j -> z = 2 ^ j * o -> 0 <= o -> (z <> 0 -> Z.odd o = true) -> Q j s) -> wp (lsb_m x) e s Q.
Proof.
  intros H P L K. destruct (Z.eq_dec z 0) as [->|N].
  - apply lsb_m_zero; auto. intros j Hj. apply (K j 0); auto; try lia.
  - eapply lsb_m_ok; eauto; [lia|]. destruct (lsb_ofZ 0 z ltac:(lia)) as (o & A1 & A2 & A3 & A4). apply (K _ o); auto. lia.
Qed.

(** * The loop: every step is in place, so it never allocates. *)
Lemma sub_abs_here e s n a b x y : calm n s -> (a < n)%nat -> has s a (ofZ x) -> has s b (ofZ y) -> 0 <= y <= x ->
  wp (sub_abs_m a a b) e s (fun rc s' => rc = 0 /\ after e n a true (ofZ (x - y)) s rc s').
Proof.
  intros C L Ha Hb K. pose proof (sub_abs_ofZ x y K) as F. destruct (has_elim _ _ _ Ha) as (La & _ & _ & _ & U).
  eapply wp_mono; [apply wp_and; [eapply sub_abs_fits; eauto|eapply sub_abs_m_ok; eauto]|]. cbv beta. intros rc s' (-> & A & _). split; auto. apply leaf_after; auto.
Qed.
Lemma gcd_loop_m_ok e n s0 f : forall tx ty s, loc n [tx; ty] s0 s -> 0 <= tx -> 0 < ty -> Z.odd tx = true \/ Z.odd ty = true -> tx * ty < 2 ^ Z.of_nat f ->
  wp (gcd_loop_m (S f) n) e s (fun _ s' => loc n [0; Z.gcd tx ty] s0 s').
Proof.
  induction f as [|f IH]; intros tx ty s K Px Py O HF.
  - change (Z.of_nat 0) with 0 in HF. rewrite Z.pow_0_r in HF. assert (tx = 0) by nia. subst tx.
    cbn [gcd_loop_m]. apply wp_bind. eapply loc_peek0; [exact K|cbn; lia|reflexivity|]. rewrite is_zero_ofZ. cbn [Z.eqb]. apply wp_ret. rewrite Z.gcd_0_l, Z.abs_eq by lia. auto.
  - remember (S f) as f1. cbn [gcd_loop_m]. apply wp_bind. eapply loc_peek0; [exact K|cbn; lia|reflexivity|]. rewrite is_zero_ofZ. cbn [nth]. destruct (Z.eqb_spec tx 0) as [->|NX].
    { apply wp_ret. rewrite Z.gcd_0_l, Z.abs_eq by lia. auto. }
    destruct (lsb_ofZ 0 tx ltac:(lia)) as (a & Pi & Ea & Oa & Pa). destruct (lsb_ofZ 0 ty ltac:(lia)) as (b & Pj & Eb & Ob & Pb).
    apply wp_bind. eapply lsb_m_ok; [eapply loc_has0; [exact K|cbn; lia|reflexivity]|cbn [nth]; lia|]. cbn [nth].
    set (i := lsb (ofZ tx) 0) in *. clearbody i. pose proof (pow2_pos i Pi) as PPi.
    apply wp_bind. eapply (loc_sure e n [tx; ty] s0 s 0 true a); [exact K|cbn; lia| |].
    { rewrite Nat.add_0_r. cbn [length]. replace a with (tx / 2 ^ i) by (rewrite Ea, Z.mul_comm, Z.div_mul; lia). apply shr_here; [apply (loc_calm _ _ _ _ K)|lia|eapply loc_has0; [exact K|cbn; lia|reflexivity]|auto|auto]. }
    cbn [upd]. intros s1 K1. cbn [Z.eqb negb].
    apply wp_bind. eapply lsb_m_ok; [eapply loc_has; [exact K1|cbn; lia|reflexivity]|cbn [nth]; lia|]. cbn [nth].
    set (j := lsb (ofZ ty) 0) in *. clearbody j. pose proof (pow2_pos j Pj) as PPj.
    apply wp_bind. eapply (loc_sure e n [a; ty] s0 s1 1 true b); [exact K1|cbn; lia| |].
    { cbn [length]. replace b with (ty / 2 ^ j) by (rewrite Eb, Z.mul_comm, Z.div_mul; lia). apply shr_here; [apply (loc_calm _ _ _ _ K1)|lia|eapply loc_has; [exact K1|cbn; lia|reflexivity]|auto|lia]. }
    cbn [upd]. intros s2 K2. cbn [Z.eqb negb].
    assert (IJ : i = 0 \/ j = 0).
    { destruct O as [O|O]; [left; apply (pow_odd_0 i a Pi)|right; apply (pow_odd_0 j b Pj)]; [rewrite <- Ea|rewrite <- Eb]; auto. }
    assert (G : Z.gcd tx ty = Z.gcd a b) by (rewrite Ea, Eb; apply odd_gcd_strip; auto).
    rewrite G. clear G IJ.
    assert (PAB : a * b <= tx * ty) by (apply Z.mul_le_mono_nonneg; nia). subst f1.
    rewrite Nat2Z.inj_succ, Z.pow_succ_r in HF by lia.
    apply wp_bind. eapply loc_peek0; [exact K2|cbn; lia|reflexivity|]. apply wp_bind. eapply loc_peek; [exact K2|cbn; lia|reflexivity|]. cbn [nth].
    rewrite cmp_abs_ofZ, !Z.abs_eq by lia.
    assert (Ha : has s2 n (ofZ a)) by (eapply loc_has0; [exact K2|cbn; lia|reflexivity]).
    assert (Hb : has s2 (n + 1) (ofZ b)) by (eapply loc_has; [exact K2|cbn; lia|reflexivity]).
    destruct (Z.leb_spec 0 (Z.sgn (a - b))) as [L|L].
    + apply wp_bind. apply wp_check. eapply (loc_sure e n [a; b] s0 s2 0 true (a - b)); [exact K2|cbn; lia| |].
      { rewrite Nat.add_0_r. cbn [length]. apply sub_abs_here; [apply (loc_calm _ _ _ _ K2)|lia|auto|auto|lia]. }
      cbn [upd]. intros s3 K3. cbn [Z.eqb].
      eapply (loc_sure e n [a - b; b] s0 s3 0 true ((a - b) / 2)); [exact K3|cbn; lia| |].
      { rewrite Nat.add_0_r. cbn [length]. rewrite <- (Z.pow_1_r 2). apply shr_here; [apply (loc_calm _ _ _ _ K3)|lia|eapply loc_has0; [exact K3|cbn; lia|reflexivity]|lia|lia]. }
      cbn [upd]. intros s4 K4. cbn [Z.eqb negb].
      pose proof (odd_sub_half a b Oa Ob) as H2. set (c := (a - b) / 2) in *. clearbody c.
      replace (Z.gcd a b) with (Z.gcd c b); [apply (IH c b); auto; try lia; nia|].
      rewrite <- (gcd_odd_2 c b Ob), <- H2. rewrite Z.gcd_comm, (Z.gcd_comm a b). apply Z.gcd_sub_diag_r.
    + apply wp_bind. apply wp_check. eapply (loc_sure e n [a; b] s0 s2 1 true (b - a)); [exact K2|cbn; lia| |].
      { cbn [length]. apply sub_abs_here; [apply (loc_calm _ _ _ _ K2)|lia|auto|auto|lia]. }
      cbn [upd]. intros s3 K3. cbn [Z.eqb].
      eapply (loc_sure e n [a; b - a] s0 s3 1 true ((b - a) / 2)); [exact K3|cbn; lia| |].
      { cbn [length]. rewrite <- (Z.pow_1_r 2). apply shr_here; [apply (loc_calm _ _ _ _ K3)|lia|eapply loc_has; [exact K3|cbn; lia|reflexivity]|lia|lia]. }
      cbn [upd]. intros s4 K4. cbn [Z.eqb negb].
      pose proof (odd_sub_half b a Ob Oa) as H2. set (c := (b - a) / 2) in *. clearbody c.
      replace (Z.gcd a b) with (Z.gcd a c); [apply (IH a c); auto; try lia; nia|].
      rewrite Z.gcd_comm, <- (gcd_odd_2 c a Oa), <- H2. rewrite Z.gcd_comm. apply Z.gcd_sub_diag_r.
Qed.

(** * cry_mpi_gcd *)
Lemma loc_copy e n L s0 s i a v f Q : loc n L s0 s -> (i < length L)%nat -> has s a (ofZ v) ->
  (forall s', loc n (upd L i v) s0 s' -> (forall y, (len s y <= len s' y)%nat) -> wp f e s' Q) -> (forall s', lost e n (length L) s0 s' -> Q (-1) s') ->
  wp (chk copy (n + i) a; f) e s Q.
Proof.
  intros K I A F G. pose proof (loc_has n L s0 s i _ K I eq_refl) as H. apply wp_check.
  eapply wp_mono; [apply copy_ok; [exact A|eapply has_live; eauto]|]. intros rc s' R.
  assert (R2 : after e (n + length L) (n + i) true (ofZ v) s rc s') by (apply leaf_after; [lia|apply (loc_calm _ _ _ _ K)|auto]).
  destruct (loc_step e n L s0 s i true v rc s' K I R2) as [[-> J]|[-> J]]; cbn [Z.eqb]; auto. apply F; auto.
  destruct R as (R & _ & [(_ & _ & LL)|(R0 & _)]); [|discriminate]. intro y. destruct (Nat.eq_dec y (n + i)) as [->|N]; auto.
  unfold len, dat, ob. rewrite R; auto.
Qed.
(** The arithmetic around the loop. *)
Lemma gcd_arith x y i j a b lz : 0 <= x -> 0 <= y -> (y = 0 -> x = 0) -> 0 <= i -> 0 <= j -> x = 2 ^ i * a -> y = 2 ^ j * b ->
  0 <= a -> 0 <= b -> (x <> 0 -> Z.odd a = true) -> (y <> 0 -> Z.odd b = true) -> lz = Z.min i j ->
  x = 2 ^ lz * (x / 2 ^ lz) /\ y = 2 ^ lz * (y / 2 ^ lz) /\ 0 <= x / 2 ^ lz /\ 0 <= y / 2 ^ lz /\
  x / 2 ^ lz <= x /\ y / 2 ^ lz <= y /\ (0 < x -> Z.odd (x / 2 ^ lz) = true \/ Z.odd (y / 2 ^ lz) = true).
Proof.
  intros Px Py XY Pi Pj Ea Eb Pa Pb Oa Ob El. assert (Hlz : 0 <= lz) by lia. pose proof (pow2_pos lz Hlz) as P2.
  assert (Ex : x / 2 ^ lz = 2 ^ (i - lz) * a).
  { rewrite Ea, (pow2_split i lz) by lia. rewrite <- Z.mul_assoc, Z.mul_comm, Z.div_mul by lia. reflexivity. }
  assert (Ey : y / 2 ^ lz = 2 ^ (j - lz) * b).
  { rewrite Eb, (pow2_split j lz) by lia. rewrite <- Z.mul_assoc, Z.mul_comm, Z.div_mul by lia. reflexivity. }
  split; [rewrite Ex; rewrite Ea at 1; rewrite (pow2_split i lz) by lia; ring|].
  split; [rewrite Ey; rewrite Eb at 1; rewrite (pow2_split j lz) by lia; ring|].
  split; [apply Z.div_pos; lia|]. split; [apply Z.div_pos; lia|].
  split; [apply Z.div_le_upper_bound; nia|]. split; [apply Z.div_le_upper_bound; nia|].
  intro P. rewrite Ex, Ey. subst lz. destruct (Z.min_spec i j) as [[_ E]|[_ E]]; rewrite E; [left|right];
    rewrite Z.sub_diag, Z.pow_0_r, Z.mul_1_l; auto. apply Oa. lia. apply Ob. lia.
Qed.
Lemma gcd_safe e s n r x y vx vy : calm n s -> (r < n)%nat -> (x < n)%nat -> (y < n)%nat -> usable s r -> has s x (ofZ vx) -> has s y (ofZ vy) ->
  0 <= vx -> 0 <= vy -> (vy = 0 -> vx = 0) -> wp (gcd_m n r x y) e s (after e n r false (ofZ (Z.gcd vx vy)) s).
Proof.
  intros C R Lx Ly U Hx Hy Px Py XY. unfold gcd_m. apply loc_init; auto.
  2:{ intros s' C' M' S'. split; auto. split; [split; [intros; apply M'; auto|destruct S' as (t & S' & _); lia]|]. right. split; auto. split; auto. destruct U as (w & U). exists w. eapply has_same; [apply M'; auto|auto]. }
  cbn [repeat]. intros s1 K1 L1. apply fin_clear; auto.
  assert (FL : forall s', lost e n 2 s s' -> fin e n 2 r false (ofZ (Z.gcd vx vy)) s (-1) s').
  { intros s' J. apply (fin_lost e n 2 r (ofZ (Z.gcd vx vy)) s s' R) in J. destruct J as (J1 & J2 & J3 & J4 & [(J5 & _)|(_ & J5 & J6)]); [discriminate|].
    split; auto. split; auto. split; auto. split; auto. right. split; auto. split; auto. destruct U as (w & U). exists w. eapply has_same; eauto. }
  rewrite <- (Nat.add_0_r n) at 1. eapply (loc_copy e n [0; 0] s s1 0 x vx); [exact K1|cbn; lia|eapply loc_out; eauto| |intros s' J; auto].
  cbn [upd]. intros s2 K2 L2. eapply (loc_copy e n [vx; 0] s s2 1 y vy); [exact K2|cbn; lia|eapply loc_out; eauto| |intros s' J; auto].
  cbn [upd]. intros s3 K3 L3.
  assert (La : (1 <= len s3 n)%nat) by (pose proof (L1 0%nat ltac:(lia)) as Q; rewrite Nat.add_0_r in Q; specialize (L2 n); specialize (L3 n); lia).
  assert (Lb : (1 <= len s3 (n + 1))%nat) by (pose proof (L1 1%nat ltac:(lia)) as Q; specialize (L2 (n + 1)%nat); specialize (L3 (n + 1)%nat); lia).
  apply wp_bind. eapply lsb_m_any; [eapply loc_has0; [exact K3|cbn; lia|reflexivity]|cbn; lia|exact La|]. cbn [nth]. intros i a Pi Ea Pa Oa.
  apply wp_bind. eapply lsb_m_any; [eapply loc_has; [exact K3|cbn; lia|reflexivity]|cbn; lia|exact Lb|]. cbn [nth]. intros j b Pj Eb Pb Ob.
  cbv zeta. set (lz := Z.min i j). assert (Hlz : 0 <= lz) by lia. pose proof (pow2_pos lz Hlz) as P2.
  destruct (gcd_arith vx vy i j a b lz Px Py XY Pi Pj Ea Eb Pa Pb Oa Ob eq_refl) as (Gx & Gy & Qx & Qy & Bx & By & OO). clearbody lz.
  eapply (loc_chk e n [vx; vy] s s3 0 true (vx / 2 ^ lz)); [exact K3|cbn; lia| | |intros s' J; auto].
  { rewrite Nat.add_0_r. cbn [length]. eapply wp_mono; [apply (shr_here e s3 (n + 2) n lz vx); [apply (loc_calm _ _ _ _ K3)|lia|eapply loc_has0; [exact K3|cbn; lia|reflexivity]|auto|auto]|]. cbv beta. intros rc s' [_ H]. exact H. }
  cbn [upd]. intros s4 K4. eapply (loc_chk e n [vx / 2 ^ lz; vy] s s4 1 true (vy / 2 ^ lz)); [exact K4|cbn; lia| | |intros s' J; auto].
  { cbn [length]. eapply wp_mono; [apply (shr_here e s4 (n + 2) (n + 1) lz vy); [apply (loc_calm _ _ _ _ K4)|lia|eapply loc_has; [exact K4|cbn; lia|reflexivity]|auto|auto]|]. cbv beta. intros rc s' [_ H]. exact H. }
  cbn [upd]. intros s5 K5. apply wp_bind. eapply loc_peek0; [exact K5|cbn; lia|reflexivity|]. apply wp_bind. eapply loc_peek; [exact K5|cbn; lia|reflexivity|]. cbn [nth].
  assert (EG : Z.gcd vx vy = Z.gcd (vx / 2 ^ lz) (vy / 2 ^ lz) * 2 ^ lz) by (rewrite Gx at 1; rewrite Gy at 1; rewrite Z.gcd_mul_mono_l_nonneg by lia; ring).
  set (tx := vx / 2 ^ lz) in *. set (ty := vy / 2 ^ lz) in *. clearbody tx ty.
  apply wp_bind. eapply wp_mono with (P := fun _ s' => loc n [0; Z.gcd tx ty] s s').
  { destruct (count_bits_spec tx ltac:(lia)) as (C1 & C2 & _). destruct (count_bits_spec ty ltac:(lia)) as (C3 & C4 & _).
    destruct (Z.eq_dec tx 0) as [T0|T0].
    - subst tx. cbn [gcd_loop_m]. apply wp_bind. eapply loc_peek0; [exact K5|cbn; lia|reflexivity|]. rewrite is_zero_ofZ. cbn [nth Z.eqb]. apply wp_ret. rewrite Z.gcd_0_l, Z.abs_eq by lia. exact K5.
    - apply gcd_loop_m_ok; auto.
      + assert (vx <> 0) by (intro; apply T0; nia). assert (vy <> 0) by tauto. nia.
      + apply OO. nia.
      + rewrite Z2Nat.id by lia. rewrite Z.pow_add_r by lia. apply Z.mul_lt_mono_nonneg; lia. }
  cbv beta. intros _ s6 K6. rewrite EG. clear EG OO Gx Gy Bx By.
  pose proof (loc_has _ _ _ _ 1 (Z.gcd tx ty) K6 ltac:(cbn; lia) eq_refl) as V.
  apply wp_bind. eapply wp_mono; [eapply (shl_safe e s6 (n + 2) (n + 1) (n + 1) lz (Z.gcd tx ty)); [apply (loc_calm _ _ _ _ K6)|lia|eexists; exact V|exact V|auto]|].
  rewrite Nat.eqb_refl. cbv beta. intros rc s7 A.
  pose proof K6 as (_ & M6 & T6 & _). destruct A as (C7 & (M7 & T7) & A).
  assert (Ur : usable s7 r). { destruct U as (w & U). exists w. eapply has_same; [rewrite M7 by lia; apply M6; auto|auto]. }
  assert (H0 : has s7 n (ofZ 0)). { eapply has_same; [apply M7; lia|]. eapply loc_has0; [exact K6|cbn; lia|reflexivity]. }
  assert (Uy : usable s7 (n + 1)). { destruct A as [(_ & A)|(_ & _ & A)]; [eexists; exact A|]. eexists. eapply has_same; [exact A|exact V]. }
  apply wp_bind. apply swap_ok; [apply usable_live; auto|apply usable_live; auto|]. intros s8 S1 S2 S3 S4. apply wp_ret.
  split; [intros z Hz; rewrite S3 by lia; apply C7; lia|].
  split; [intros z Hz N; rewrite S3, M7, M6 by lia; auto|]. split; [lia|].
  split. { intros k Hk. destruct k as [|[|k]]; [| |lia].
    - rewrite Nat.add_0_r. unfold live. rewrite S3 by lia. eapply has_live; eauto.
    - unfold live. rewrite S2. apply usable_live; auto. }
  destruct A as [(-> & A)|(-> & S & A)]; [left|right]; (split; [auto|]).
  - unfold has. rewrite S1. exact A.
  - split; [eapply starved_mono; [| |exact S]; lia|]. exists (ofZ (Z.gcd tx ty)). unfold has. rewrite S1, A. exact V.
Qed.

(** * cry_mpi_lcm *)
Lemma after2_quo e n q strong v w s rc s' : (q < n)%nat -> usable s q -> after2 e n (Some q) None strong v w s rc s' -> after e n q strong v s rc s'.
Proof.
  intros L U (K & M & T & H). split; auto. split; [split; auto|].
  - intros x Lx N. apply M; auto; congruence.
  - destruct H as [(R & H & _)|(R & S & H)]; [left; auto|right]. split; auto. split; auto.
    destruct strong; [apply H; auto|]. apply (H q). auto.
Qed.
Lemma after_fin e n k r b v L s0 s rc s' : length L = k -> loc n L s0 s -> (r < n)%nat -> after e (n + k) r b v s rc s' -> fin e n k r b v s0 rc s'.
Proof.
  intros E (C & M & T & H) R (C' & (K & T') & D). subst k. split; auto. split; [intros x Hx N; rewrite K, M by lia; auto|]. split; [lia|].
  split; [intros i Hi; eapply has_live; eapply has_same; [apply K; lia|apply H; auto]|].
  destruct D as [(-> & D)|(-> & S & D)]; [left; auto|right]. split; auto. split; [eapply starved_mono; [| |exact S]; lia|].
  destruct b; auto. rewrite D. auto.
Qed.
Lemma fin_weak e n k r b v s0 rc s : usable s0 r -> fin e n k r true v s0 rc s -> fin e n k r b v s0 rc s.
Proof.
  intros U H. destruct b; auto. destruct H as (J1 & J2 & J3 & J4 & J). split; auto. split; auto. split; auto. split; auto. destruct J as [J5|(J & J5 & J6)]; [left; auto|].
  right. split; auto. split; auto. destruct U as (w & U). exists w. eapply has_same; eauto.
Qed.
Lemma start_fails e n r b v s s' : (r < n)%nat -> usable s r -> calm n s' -> (forall x, (x < n)%nat -> mem s' x = mem s x) -> starved e s s' -> after e n r b v s (-1) s'.
Proof.
  intros R U C' M' S'. split; auto. split; [split; [intros; apply M'; auto|destruct S' as (t & S' & _); lia]|]. right. split; auto. split; auto.
  destruct b; auto. destruct U as (w & U). exists w. eapply has_same; [apply M'; auto|auto].
Qed.
Lemma lcm_safe e s n r x y vx vy : calm n s -> (r < n)%nat -> (x < n)%nat -> (y < n)%nat -> usable s r -> has s x (ofZ vx) -> has s y (ofZ vy) ->
  0 <= vx -> 0 < vy -> wp (lcm_m n r x y) e s (after e n r (0 <? vx) (ofZ (Z.lcm vx vy)) s).
Proof.
  intros C R Lx Ly U Hx Hy Px Py. unfold lcm_m. apply loc_init; auto.
  2:{ intros. apply start_fails; auto. }
  cbn [repeat]. intros s1 K1 _. apply fin_clear; auto.
  assert (FL : forall s', lost e n 2 s s' -> fin e n 2 r (0 <? vx) (ofZ (Z.lcm vx vy)) s (-1) s').
  { intros s' J. apply fin_weak; auto. apply fin_lost; auto. }
  set (g := Z.gcd vx vy). assert (G : 0 < g). { unfold g. pose proof (Z.gcd_nonneg vx vy). destruct (Z.eq_dec (Z.gcd vx vy) 0) as [E|]; [apply Z.gcd_eq_0_r in E; lia|lia]. }
  rewrite <- (Nat.add_0_r n) at 2. eapply (loc_chk e n [0; 0] s s1 0 false g); [exact K1|cbn; lia| | |intros s' J; auto].
  { rewrite Nat.add_0_r. cbn [length]. apply gcd_safe; [apply (loc_calm _ _ _ _ K1)|lia|lia|lia|eexists; eapply loc_has0; [exact K1|cbn; lia|reflexivity]|eapply loc_out; eauto|eapply loc_out; eauto|lia|lia|lia]. }
  cbn [upd]. intros s2 K2. eapply (loc_chk e n [g; 0] s s2 1 false (vx * vy)); [exact K2|cbn; lia| | |intros s' J; auto].
  { cbn [length]. apply mul_safe; [apply (loc_calm _ _ _ _ K2)|lia|lia|lia|eexists; eapply loc_has; [exact K2|cbn; lia|reflexivity]|eapply loc_out; eauto|eapply loc_out; eauto]. }
  cbn [upd]. intros s3 K3.
  assert (Ur : usable s3 r) by (destruct U as (w & U); exists w; eapply loc_out; eauto).
  assert (E : Z.lcm vx vy = vx * vy / g).
  { unfold Z.lcm. fold g. destruct (Z.gcd_divide_r vx vy) as [k Hk]. fold g in Hk. clearbody g. subst vy. rewrite Z.mul_assoc, !Z.div_mul by lia. rewrite Z.abs_eq; auto. apply Z.mul_nonneg_nonneg; nia. }
  assert (EB : (g <=? vx * vy) = (0 <? vx)).
  { assert (g <= vy) by (apply Z.divide_pos_le; [lia|apply Z.gcd_divide_r]). destruct (Z.ltb_spec 0 vx); [apply Z.leb_le; nia|apply Z.leb_gt; nia]. }
  rewrite E, <- EB. eapply wp_mono; [eapply (div_safe e s3 (n + 2) (Some r) None (n + 1) n (vx * vy) g)|].
  - apply (loc_calm _ _ _ _ K3).
  - lia.
  - lia.
  - eapply loc_has; [exact K3|cbn; lia|reflexivity].
  - eapply loc_has0; [exact K3|cbn; lia|reflexivity].
  - nia.
  - exact G.
  - intros q Q. injection Q as <-. split; [lia|]. split; [auto|discriminate].
  - discriminate.
  - intros rc s4 A. eapply (after_fin e n 2 r _ _ [g; vx * vy] s s3); auto. eapply after2_quo; [lia|auto|exact A].
Qed.
