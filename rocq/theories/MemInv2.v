(** cry_mpi_inv does not end when memory runs out in it. *)
From Verif Require Import Base Lists Bits MpiModel MpiSpec MpiDigits MpiMulModel MpiCanon MpiDivModel MpiDiv MpiAlgModel MpiAlg MpiAlg2 MemModel MemMulModel MemDivModel MemAlgModel MemSpec Mem MemOps MemShift MemLeaf MemMul MemSim MemMulSafe MemDiv MemDivSafe MemLoc MemGcd MemExp MemInv.
Ltac Zify.zify_post_hook ::= idtac.

(** The loop bound is reached. *)
Definition stuck {A} (c : cmd A) (e : env) (s : st) : Prop := c e s = Fuel.
Lemma stuck_bind {A C} (m : cmd A) (f : A -> cmd C) e s : wp m e s (fun a s' => stuck (f a) e s') -> stuck (cbind m f) e s.
Proof. unfold wp, stuck, cbind. destruct (m e s) as [[a s']| | |]; auto; contradiction. Qed.
Lemma stuck_here {A C} (m : cmd A) (f : A -> cmd C) e s : stuck m e s -> stuck (cbind m f) e s.
Proof. unfold stuck, cbind. intros ->. reflexivity. Qed.

Lemma after_keep e n L s0 s i v {A} (m : cmd Z) (f : cmd A) : loc n L s0 s -> (i < length L)%nat -> nth i L 0 = v ->
  wp m e s (after e (n + length L) (n + i) true (ofZ v) s) -> (forall s', loc n L s0 s' -> (tick s <= tick s')%nat -> stuck f e s') -> stuck (call m; f) e s.
Proof.
  intros K I E W F. apply stuck_bind. eapply wp_mono; [exact W|]. intros rc s' (C & (M & T) & D). apply F; auto.
  pose proof (loc_has _ _ _ _ i v K I E) as V. destruct K as (K1 & K2 & K3 & K4). split; auto. split; [intros x Hx; rewrite M by lia; auto|]. split; [lia|].
  intros j Hj. destruct (Nat.eq_dec j i) as [->|N].
  - rewrite E. destruct D as [(_ & D)|(_ & _ & D)]; auto. eapply has_same; [exact D|exact V].
  - eapply has_same; [apply M; lia|apply K4; auto].
Qed.
(** the second half of a round, with quotient 0 *)
Lemma stuck_tail e n s0 s x y c0 c1 (f : cmd unit) : loc n [x; y; c0; c1; 0] s0 s ->
  (forall s', loc n [x; y; c1; c0; 0] s0 s' -> (tick s <= tick s')%nat -> stuck f e s') ->
  stuck (call mul_m (n + 5) (n + 4) (n + 4) (n + 3); call sub_m (n + 2) (n + 2) (n + 4); call swap (n + 2) (n + 3); call zero (n + 4); f) e s.
Proof.
  intros K F. eapply (after_keep e n [x; y; c0; c1; 0] s0 s 4 (0 * c1)); [exact K|cbn; lia|reflexivity| |].
  { cbn [length]. assert (V : has s (n + 4) (ofZ 0)) by (eapply loc_has; [exact K|cbn; lia|reflexivity]).
    apply mul_safe_small; [apply (loc_calm _ _ _ _ K)|lia|lia|lia|eexists; exact V|exact V|eapply loc_has; [exact K|cbn; lia|reflexivity]|]. left. apply Z.pow_pos_nonneg; lia. }
  intros s1 K1 T1. eapply (after_keep e n [x; y; c0; c1; 0] s0 s1 2 (c0 - 0)); [exact K1|cbn; lia|cbn [nth]; lia| |].
  { cbn [length]. assert (V : has s1 (n + 2) (ofZ c0)) by (eapply loc_has; [exact K1|cbn; lia|reflexivity]).
    apply sub_safe; [apply (loc_calm _ _ _ _ K1)|lia|eexists; exact V|exact V|eapply loc_has; [exact K1|cbn; lia|reflexivity]]. }
  intros s2 K2 T2. apply stuck_bind. eapply loc_swap2; [exact K2|cbn; lia|cbn; lia|discriminate|]. cbn [upd nth]. intros s3 K3 T3.
  apply stuck_bind. eapply loc_zero; [exact K3|cbn; lia|]. cbn [upd]. intros s4 K4 T4. apply F; auto. lia.
Qed.
(** a division that needs memory and gets none *)
Lemma div_refused e n rq rr a b x y s : has s a (ofZ x) -> has s b (ofZ y) -> 0 < y <= x -> grant e (tick s) = false ->
  wp (div_m n rq rr a b) e s (fun rc s' => rc = -1 /\ (forall z, z <> n -> mem s' z = mem s z) /\ mem s' n = None /\ tick s' = S (tick s)).
Proof.
  intros Ha Hb P G. unfold div_m. apply wp_bind. eapply wp_peek; eauto. apply wp_bind. eapply wp_peek; eauto. apply wp_check.
  unfold div_abs_m. apply wp_bind. eapply wp_peek; eauto. apply wp_bind. eapply wp_peek; eauto. rewrite nz_ofZ by lia. rewrite cmp_abs_ofZ, sgn_lt_abs. rewrite !Z.abs_eq by lia. destruct (Z.ltb_spec x y); [lia|].
  apply wp_check. unfold init_size. destruct (Nat.eqb_spec (used (ofZ x) + 2) 0); [lia|]. apply wp_bind. unfold alloc. unfold wp at 1. rewrite G.
  apply wp_bind. unfold set. unfold wp at 1. apply wp_ret. cbn [Z.eqb mem tick]. split; auto. split; [|split; auto; rewrite Nat.eqb_refl; auto].
  intros z N. rewrite (proj2 (Nat.eqb_neq z n)) by auto. auto.
Qed.
(** a division of the smaller by the larger, in place: no memory needed *)
Lemma div_small_here e n q a b x y s : has s a (ofZ x) -> has s b (ofZ y) -> 0 <= x < y -> live s q ->
  wp (div_m n (Some q) (Some a) a b) e s (fun rc s' => becomes s q (mkobj false 0 (dat s q)) s').
Proof.
  intros Ha Hb P L. unfold div_m. apply wp_bind. eapply wp_peek; eauto. apply wp_bind. eapply wp_peek; eauto. apply wp_check.
  unfold div_abs_m. apply wp_bind. eapply wp_peek; eauto. apply wp_bind. eapply wp_peek; eauto. rewrite nz_ofZ by lia. rewrite cmp_abs_ofZ, sgn_lt_abs. rewrite !Z.abs_eq by lia. destruct (Z.ltb_spec x y); [|lia].
  apply wp_bind. unfold copy. rewrite Nat.eqb_refl. apply wp_ret. apply wp_bind. apply zero_ok; auto. intros s' K. apply wp_ret. cbn [Z.eqb]. rewrite !ofZ_neg. destruct (Z.ltb_spec x 0); [lia|]. destruct (Z.ltb_spec y 0); [lia|]. cbn [xorb].
  apply wp_ret. exact K.
Qed.
(** Once nothing is granted any more the two remainders only change places. *)
Lemma inv_loop_stuck e n s0 t x y : (forall k, (t <= k)%nat -> grant e k = false) -> 0 < y < x -> forall f s c0 c1, (t <= tick s)%nat ->
  loc n [x; y; c0; c1; 0] s0 s \/ loc n [y; x; c0; c1; 0] s0 s -> stuck (inv_loop_m f n) e s.
Proof.
  intros G P. induction f as [|f IH]; intros s c0 c1 T K; cbn [inv_loop_m]; apply stuck_bind.
  - destruct K as [K|K]; (eapply loc_peek; [exact K|cbn; lia|reflexivity|]); cbn [nth]; rewrite is_zero_ofZ; match goal with |- context [?z =? 0] => destruct (Z.eqb_spec z 0) end; try lia; reflexivity.
  - destruct K as [K|K]; (eapply loc_peek; [exact K|cbn; lia|reflexivity|]); cbn [nth]; rewrite is_zero_ofZ; match goal with |- context [?z =? 0] => destruct (Z.eqb_spec z 0) end; try lia; apply stuck_bind.
    + eapply wp_mono; [eapply (div_refused e (n + 5) (Some (n + 4)%nat) (Some n) n (n + 1) x y); [eapply loc_has0; [exact K|cbn; lia|reflexivity]|eapply loc_has; [exact K|cbn; lia|reflexivity]|lia|apply G; auto]|].
      cbv beta. intros rc s1 (_ & M & M5 & T1).
      assert (K1 : loc n [x; y; c0; c1; 0] s0 s1).
      { destruct K as (K1 & K2 & K3 & K4). cbn [length] in *. split; [intros z Hz; destruct (Nat.eq_dec z (n + 5)) as [->|N]; [left; auto|rewrite M by auto; apply K1; auto]|].
        split; [intros z Hz; rewrite M by lia; auto|]. split; [lia|]. intros i Hi. eapply has_same; [apply M; cbn in Hi; lia|apply K4; auto]. }
      apply stuck_bind. rewrite <- (Nat.add_0_r n) at 1. eapply loc_swap2; [exact K1|cbn; lia|cbn; lia|discriminate|]. cbn [upd nth]. intros s2 K2 T2.
      eapply stuck_tail; [exact K2|]. intros s3 K3 T3. apply (IH s3 c1 c0); [lia|]. right. exact K3.
    + assert (V : has s (n + 4) (ofZ 0)) by (eapply loc_has; [exact K|cbn; lia|reflexivity]).
      eapply wp_mono; [eapply (div_small_here e (n + 5) (n + 4) n (n + 1) y x); [eapply loc_has0; [exact K|cbn; lia|reflexivity]|eapply loc_has; [exact K|cbn; lia|reflexivity]|lia|eapply has_live; exact V]|].
      cbv beta. intros rc s1 (M4 & M & T1).
      assert (K1 : loc n [y; x; c0; c1; 0] s0 s1).
      { destruct K as (K1 & K2 & K3 & K4). cbn [length] in *. split; [intros z Hz; cbn [length] in Hz; rewrite M by lia; apply K1; auto|].
        split; [intros z Hz; rewrite M by lia; auto|]. split; [lia|]. intros i Hi. destruct (Nat.eq_dec i 4) as [->|N].
        - eexists. split; [exact M4|]. cbn. split; [lia|reflexivity].
        - eapply has_same; [apply M; cbn in Hi; lia|apply K4; auto]. }
      apply stuck_bind. rewrite <- (Nat.add_0_r n) at 1. eapply loc_swap2; [exact K1|cbn; lia|cbn; lia|discriminate|]. cbn [upd nth]. intros s2 K2 T2.
      eapply stuck_tail; [exact K2|]. intros s3 K3 T3. apply (IH s3 c1 c0); [lia|]. left. exact K3.
Qed.

Lemma ret0 {A C D} (m1 : cmd A) (m2 : cmd C) (m3 : cmd D) e s rc s' : (call m1; call m2; call m3; ret 0) e s = Ok (rc, s') -> rc = 0.
Proof.
  unfold cbind, ret. destruct (m1 e s) as [[? ?]| | |]; try discriminate. destruct (m2 e _) as [[? ?]| | |]; try discriminate. destruct (m3 e _) as [[? ?]| | |]; try discriminate. congruence.
Qed.
Lemma copy_fits e d s0 v s : has s s0 v -> live s d -> (used v <= len s d)%nat -> wp (copy d s0) e s (fun rc s' => rc = 0 /\ leaf e d true v s rc s').
Proof.
  intros H L N. apply wp_and; [|apply copy_ok; auto]. pose proof (copy_ok e d s0 v s H L) as W. apply wp_ok in W. destruct W as (rc & s' & E & _). apply wp_ok. exists rc, s'. split; auto.
  unfold copy in E. destruct (d =? s0)%nat; [unfold ret in E; congruence|]. destruct (has_elim _ _ _ H) as (L0 & U & _).
  unfold cbind at 1, get at 1 in E. rewrite (live_ob _ _ L0) in E. unfold check in E. unfold cbind at 1 in E.
  assert (X : ensure d (o_us (ob s s0)) e s = Ok (0, s)).
  { rewrite U. unfold ensure. unfold cbind, get. rewrite (live_ob _ _ L). fold (dat s d). unfold len in N. destruct (Nat.ltb_spec (length (dat s d)) (used v)); [lia|reflexivity]. }
  rewrite X in E. cbn [Z.eqb] in E. eapply ret0; exact E.
Qed.
Lemma init_list_granted e l : forall d s, (forall k, (tick s <= k < tick s + length l)%nat -> grant e k = true) ->
  wp (init_list d l) e s (fun rc s' => rc = 0 /\ tick s' = (tick s + length l)%nat).
Proof.
  induction l as [|x l IH]; intros d s G; cbn [init_list length] in *.
  - apply wp_ret. split; [auto|lia].
  - apply wp_bind. unfold init. apply wp_bind. unfold alloc. unfold wp at 1. rewrite G by lia. apply wp_bind. unfold set. unfold wp at 1. apply wp_ret. cbn [Z.eqb tick].
    eapply wp_mono; [apply IH; cbn [tick]; intros; apply G; lia|]. cbv beta. cbn [tick]. intros rc s' [-> E]. split; auto. lia.
Qed.
Lemma room x : 0 < x < 2 ^ 512 -> (used (ofZ x) <= 8)%nat.
Proof.
  intro H. destruct (used_bounds x ltac:(lia)) as (_ & U & _). destruct (Nat.le_gt_cases (used (ofZ x)) 8) as [|G]; auto. exfalso.
  assert (B ^ 8 <= B ^ Z.of_nat (used (ofZ x) - 1)) by (apply Z.pow_le_mono_r; [reflexivity|lia]). change (B ^ 8) with (2 ^ 512) in *. lia.
Qed.
Lemma fits_call e n L s0 s i v {A} (m : cmd Z) (f : cmd A) : loc n L s0 s -> (i < length L)%nat -> wp m e s (fun rc s' => rc = 0 /\ leaf e (n + i) true (ofZ v) s rc s') ->
  (forall s', loc n (upd L i v) s0 s' -> (forall y, (len s y <= len s' y)%nat) -> (tick s <= tick s')%nat -> stuck f e s') -> stuck (call m; f) e s.
Proof.
  intros K I W F. apply stuck_bind. eapply wp_mono; [exact W|]. cbv beta. intros rc s' (-> & R).
  assert (R2 : after e (n + length L) (n + i) true (ofZ v) s 0 s') by (apply leaf_after; [lia|apply (loc_calm _ _ _ _ K)|auto]).
  destruct (loc_step e n L s0 s i true v 0 s' K I R2) as [[_ J]|[J _]]; [|discriminate].
  destruct R as (R & T & [(_ & _ & LL)|(R0 & _)]); [|discriminate]. apply F; auto. intro y. destruct (Nat.eq_dec y (n + i)) as [->|N]; auto.
  unfold len, dat, ob. rewrite R; auto.
Qed.
(** All five locals are set up, then memory is exhausted. *)
Lemma inv_stuck e s n r a m x y : calm n s -> (a < n)%nat -> (m < n)%nat -> has s a (ofZ x) -> has s m (ofZ y) -> 0 < x < 2 ^ 512 -> 0 < y < 2 ^ 512 -> x <> y ->
  (forall k, (tick s <= k < tick s + 5)%nat -> grant e k = true) -> (forall k, (tick s + 5 <= k)%nat -> grant e k = false) ->
  forall fuel, inv_fuel_m fuel n r a m e s = Fuel.
Proof.
  intros C La Lm Ha Hm X Y N G1 G2 fuel. change (stuck (inv_fuel_m fuel n r a m) e s). unfold inv_fuel_m. unfold check. apply stuck_bind.
  assert (W : wp (chk init_list [] (locals n 5); ret 0) e s (fun rc s' => loc n (repeat 0 5) s s' /\ (forall i, (i < 5)%nat -> (8 <= len s' (n + i))%nat) \/ starved e s s' /\ rc = -1)).
  { apply loc_init; auto. intros s' K L. apply wp_ret. left. auto. }
  pose proof (init_list_granted e (locals n 5) [] s G1) as V.
  apply wp_ok in V. destruct V as (rc & s1 & E & -> & T). apply wp_ok. exists 0, s1. split; auto. cbn [Z.eqb].
  unfold wp, check, cbind in W. rewrite E in W. cbn [Z.eqb] in W. unfold ret in W. destruct W as [(K & L)|(_ & W)]; [|discriminate]. cbn [repeat] in K. cbn [locals seq length] in T.
  unfold finally. apply stuck_here.
  pose proof (room x X) as RX. pose proof (room y Y) as RY.
  eapply (fits_call e n [0; 0; 0; 0; 0] s s1 0 x); [exact K|cbn; lia| |].
  { rewrite Nat.add_0_r. apply copy_fits; [eapply loc_out; eauto|eapply has_live; eapply loc_has0; [exact K|cbn; lia|reflexivity]|]. specialize (L 0%nat ltac:(lia)). rewrite Nat.add_0_r in L. lia. }
  cbn [upd]. intros s2 K2 L2 T2. eapply (fits_call e n [x; 0; 0; 0; 0] s s2 1 y); [exact K2|cbn; lia| |].
  { apply copy_fits; [eapply loc_out; eauto|eapply has_live; eapply loc_has; [exact K2|cbn; lia|reflexivity]|]. specialize (L 1%nat ltac:(lia)). specialize (L2 (n + 1)%nat). lia. }
  cbn [upd]. intros s3 K3 L3 T3. eapply (fits_call e n [x; y; 0; 0; 0] s s3 2 1); [exact K3|cbn; lia| |].
  { apply set_int_fits; [eapply has_live; eapply loc_has; [exact K3|cbn; lia|reflexivity]| |lia]. specialize (L 2%nat ltac:(lia)). specialize (L2 (n + 2)%nat). specialize (L3 (n + 2)%nat). lia. }
  cbn [upd]. intros s4 K4 L4 T4. eapply (fits_call e n [x; y; 1; 0; 0] s s4 3 0); [exact K4|cbn; lia| |].
  { apply set_int_fits; [eapply has_live; eapply loc_has; [exact K4|cbn; lia|reflexivity]| |lia]. specialize (L 3%nat ltac:(lia)). specialize (L2 (n + 3)%nat). specialize (L3 (n + 3)%nat). specialize (L4 (n + 3)%nat). lia. }
  cbn [upd]. intros s5 K5 L5 T5. apply stuck_here. destruct (Z.lt_ge_cases y x) as [O|O].
  - eapply (inv_loop_stuck e n s (tick s + 5) x y); [exact G2|lia| |left; exact K5]. lia.
  - eapply (inv_loop_stuck e n s (tick s + 5) y x); [exact G2|lia| |right; exact K5]. lia.
Qed.
