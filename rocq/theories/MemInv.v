(** Memory-level modular inverse: src/mpi/mpi_inv.c. *)
From Verif Require Import Base Lists Bits MpiModel MpiSpec MpiDigits MpiMulModel MpiCanon MpiDivModel MpiDiv MpiAlgModel MpiAlg MpiAlg2 MemModel MemMulModel MemDivModel MemAlgModel MemSpec Mem MemOps MemShift MemLeaf MemMul MemSim MemMulSafe MemDiv MemDivSafe MemLoc MemGcd MemExp.
Ltac Zify.zify_post_hook ::= idtac.

(** * Steps on the locals *)
Lemma upd_len2 {A} (l : list A) i x j y : length (upd (upd l i x) j y) = length l.
Proof. rewrite !upd_length. reflexivity. Qed.
Lemma loc_swap2 e n L s0 s i j (Q : unit -> st -> Prop) : loc n L s0 s -> (i < length L)%nat -> (j < length L)%nat -> i <> j ->
  (forall s', loc n (upd (upd L i (nth j L 0)) j (nth i L 0)) s0 s' -> tick s' = tick s -> Q tt s') -> wp (swap (n + i) (n + j)) e s Q.
Proof.
  intros (C & M & T & H) I J N K. apply swap_ok; [eapply has_live; apply H; auto|eapply has_live; apply H; auto|]. intros s' S1 S2 S3 S4. apply K; auto.
  split; [rewrite upd_len2; intros x Hx; rewrite S3 by lia; apply C; auto|]. split; [intros x Hx; rewrite S3 by lia; auto|]. split; [lia|].
  intros k Hk. rewrite upd_len2 in Hk. rewrite upd_nth by (rewrite upd_length; auto). rewrite upd_nth by auto. destruct (Nat.eqb_spec k j) as [->|N1].
  - unfold has. rewrite S2. apply H. auto.
  - destruct (Nat.eqb_spec k i) as [->|N2]; [unfold has; rewrite S1; apply H; auto|]. unfold has. rewrite S3 by lia. apply H. auto.
Qed.
Lemma loc_zero e n L s0 s i (Q : unit -> st -> Prop) : loc n L s0 s -> (i < length L)%nat -> (forall s', loc n (upd L i 0) s0 s' -> tick s' = tick s -> Q tt s') -> wp (zero (n + i)) e s Q.
Proof.
  intros K I F. pose proof (loc_has _ _ _ _ i _ K I eq_refl) as V. apply zero_ok; [eapply has_live; eauto|]. intros s' Bc.
  pose proof Bc as (B1 & B2 & B3). apply F; [|auto]. destruct (loc_step e n L s0 s i true 0 0 s' K I) as [[_ J]|[J _]]; [|auto|discriminate].
  apply leaf_after; [lia|apply (loc_calm _ _ _ _ K)|]. eapply becomes_leaf; eauto; cbn; lia.
Qed.
Lemma loc_call e n L s0 s i b v {A} (m : cmd Z) (f : cmd A) Q : (forall k, grant e k = true) -> loc n L s0 s -> (i < length L)%nat ->
  wp m e s (after e (n + length L) (n + i) b (ofZ v) s) -> (forall s', loc n (upd L i v) s0 s' -> wp f e s' Q) -> wp (call m; f) e s Q.
Proof.
  intros G K I W F. apply wp_bind. eapply wp_mono; [exact W|]. intros rc s' A0.
  destruct (loc_step e n L s0 s i b v rc s' K I A0) as [[-> J]|[-> (_ & _ & J & _)]]; auto. destruct (fed _ _ _ G J).
Qed.

(** * One round *)
Lemma inv_round e n s0 s r0 r1 c0 c1 q qv rv (f : cmd unit) Q : (forall k, grant e k = true) -> loc n [r0; r1; c0; c1; q] s0 s -> 0 < r1 -> 0 <= r0 \/ (2 <= len s (n + 4))%nat ->
  div (ofZ r0) (ofZ r1) = Ok (ofZ qv, ofZ rv) -> (forall s', loc n [r1; rv; c1; c0 - qv * c1; 0] s0 s' -> wp f e s' Q) ->
  wp (call div_m (n + 5) (Some (n + 4)%nat) (Some n) n (n + 1); call swap n (n + 1); call mul_m (n + 5) (n + 4) (n + 4) (n + 3); call sub_m (n + 2) (n + 2) (n + 4); call swap (n + 2) (n + 3); call zero (n + 4); f) e s Q.
Proof.
  intros G K P D F W. pose proof (loc_calm _ _ _ _ K) as C.
  assert (H0 : has s n (ofZ r0)) by (eapply loc_has0; [exact K|cbn; lia|reflexivity]). assert (H1 : has s (n + 1) (ofZ r1)) by (eapply loc_has; [exact K|cbn; lia|reflexivity]).
  assert (H4 : has s (n + 4) (ofZ q)) by (eapply loc_has; [exact K|cbn; lia|reflexivity]).
  apply wp_bind. eapply wp_mono; [eapply (div_m_ok e (n + 5) (Some (n + 4)%nat) (Some n) n (n + 1) (ofZ r0) (ofZ r1) (ofZ qv) (ofZ rv)); try apply canon_ofZ|].
  - exact C.
  - lia.
  - lia.
  - exact H0.
  - exact H1.
  - intros x E. injection E as <-. lia.
  - intros x E. injection E as <-. lia.
  - intros x E. injection E as <-. eexists; exact H4.
  - intros x E. injection E as <-. eexists; exact H0.
  - intros x E. injection E as <-. intro E. injection E. lia.
  - unfold differ. rewrite !ofZ_neg. destruct (Z.ltb_spec r1 0); [lia|]. intro X. split; [exists n; split; [auto|lia]|]. split; [intro E; injection E; lia|].
    intros _ x E. injection E as <-. destruct D as [D|D]; auto. destruct (Z.ltb_spec r0 0); [lia|discriminate].
  - apply nz_ofZ. lia.
  - exact F.
  - intros rc s1 A. destruct (after2_fed _ _ _ _ _ _ _ _ _ _ G A) as (-> & A1 & A2). cbn [holds] in A1, A2. destruct A as (A3 & A4 & A5 & _).
    destruct K as (_ & K2 & K3 & K4). cbn [length] in *.
    assert (K1 : loc n [rv; r1; c0; c1; qv] s0 s1).
    { split; [exact A3|]. split; [intros x Hx; rewrite A4; auto; try lia; intro E; injection E; lia|]. split; [lia|].
      intros i Hi. cbn [length] in Hi. destruct i as [|[|[|[|[|i]]]]]; [rewrite Nat.add_0_r; exact A2| | | |exact A1|lia];
        (eapply has_same; [apply A4; [lia|intro E; injection E; lia|intro E; injection E; lia]|apply (K4 _ Hi)]). }
    clear A1 A2 A3 A4 A5 K2 K3 K4 H0 H1 H4 C.
    apply wp_bind. rewrite <- (Nat.add_0_r n) at 1. eapply loc_swap2; [exact K1|cbn; lia|cbn; lia|discriminate|]. cbn [upd nth]. intros s2 K2 _. clear K1.
    pose proof (loc_calm _ _ _ _ K2) as C2.
    eapply (loc_call e n [r1; rv; c0; c1; qv] s0 s2 4 false (qv * c1)); [exact G|exact K2|cbn; lia| |].
    { cbn [length]. assert (V : has s2 (n + 4) (ofZ qv)) by (eapply loc_has; [exact K2|cbn; lia|reflexivity]). apply mul_safe; [exact C2|lia|lia|lia|eexists; exact V|exact V|eapply loc_has; [exact K2|cbn; lia|reflexivity]]. }
    cbn [upd]. intros s3 K3. pose proof (loc_calm _ _ _ _ K3) as C3.
    eapply (loc_call e n [r1; rv; c0; c1; qv * c1] s0 s3 2 true (c0 - qv * c1)); [exact G|exact K3|cbn; lia| |].
    { cbn [length]. assert (V : has s3 (n + 2) (ofZ c0)) by (eapply loc_has; [exact K3|cbn; lia|reflexivity]). apply sub_safe; [exact C3|lia|eexists; exact V|exact V|eapply loc_has; [exact K3|cbn; lia|reflexivity]]. }
    cbn [upd]. intros s4 K4.
    apply wp_bind. eapply loc_swap2; [exact K4|cbn; lia|cbn; lia|discriminate|]. cbn [upd nth]. intros s5 K5 _.
    apply wp_bind. eapply loc_zero; [exact K5|cbn; lia|]. cbn [upd]. intros s6 K6 _. apply W. exact K6.
Qed.
Lemma inv_loop_m_ok e n s0 : (forall k, grant e k = true) -> forall f r0 r1 c0 c1 q s g sv, 0 <= r0 -> 0 <= r1 -> loc n [r0; r1; c0; c1; q] s0 s ->
  inv_loop f (ofZ r0) (ofZ r1) (ofZ c0) (ofZ c1) = Ok (ofZ g, ofZ sv) -> wp (inv_loop_m f n) e s (fun _ s' => exists c q', loc n [g; 0; sv; c; q'] s0 s').
Proof.
  intro G. assert (J : forall a b c d, (Ok (ofZ a, ofZ b) : res (mpi * mpi)) = Ok (ofZ c, ofZ d) -> a = c /\ b = d).
  { intros a b c d E. split; [rewrite <- (mval_ofZ a), <- (mval_ofZ c)|rewrite <- (mval_ofZ b), <- (mval_ofZ d)]; congruence. }
  induction f as [|f IH]; intros r0 r1 c0 c1 q s g sv P0 P1 K F; cbn [inv_loop_m inv_loop] in *; (apply wp_bind; eapply loc_peek; [exact K|cbn; lia|reflexivity|]; cbn [nth]); rewrite is_zero_ofZ in *; destruct (Z.eqb_spec r1 0) as [->|N].
  - apply wp_ret. destruct (J _ _ _ _ F) as [<- <-]. eauto.
  - discriminate.
  - apply wp_ret. destruct (J _ _ _ _ F) as [<- <-]. eauto.
  - rewrite div_ofZ in F by lia. cbn [bind] in F. rewrite mul_ofZ in F. cbn [bind] in F. rewrite sub_ofZ in F. cbn [bind] in F.
    eapply inv_round; [exact G|exact K|lia|auto|apply div_ofZ; lia|]. intros s1 K1. eapply IH; [| |exact K1|exact F]; [lia|]. apply Z.mod_pos_bound. lia.
Qed.

Lemma finally_clear e n k s body (P Q : Z -> st -> Prop) : wp body e s (fun rc s1 => calm (n + k) s1 /\ (forall i, (i < k)%nat -> live s1 (n + i)) /\ P rc s1) ->
  (forall rc s1 s2, P rc s1 -> calm n s2 -> (forall x, (x < n)%nat -> mem s2 x = mem s1 x) -> tick s2 = tick s1 -> Q rc s2) ->
  wp (finally body (clear_list (locals n k))) e s Q.
Proof.
  intros W F. apply wp_finally. eapply wp_mono; [exact W|]. intros rc s1 (C & U & D).
  eapply wp_mono; [apply clear_list_ok|].
  - intros x Hx. apply in_locals in Hx. replace x with (n + (x - n))%nat by lia. apply U. lia.
  - intros t s2 (A1 & A2 & A3). eapply F; [exact D| | |auto].
    + intros x Hx. destruct (in_dec Nat.eq_dec x (locals n k)) as [I|I]; [right; auto|]. rewrite A2 by auto. rewrite in_locals in I. apply C. lia.
    + intros x Hx; apply A2; rewrite in_locals; lia.
Qed.

(** * cry_mpi_inv, while no allocation is refused *)
Lemma set_int_loc e n L s0 s i v {A} (f : cmd A) Q : (forall k, grant e k = true) -> loc n L s0 s -> (i < length L)%nat -> - 2 ^ 63 < v < 2 ^ 63 ->
  (forall s', loc n (upd L i v) s0 s' -> (forall x, x <> (n + i)%nat -> mem s' x = mem s x) -> wp f e s' Q) -> wp (call set_int (n + i) v; f) e s Q.
Proof.
  intros G K I V F. apply wp_bind. eapply wp_mono; [apply set_int_leaf; [eapply has_live; eapply loc_has; eauto|auto]|]. intros rc s' R.
  assert (R2 : after e (n + length L) (n + i) true (ofZ v) s rc s') by (apply leaf_after; [lia|apply (loc_calm _ _ _ _ K)|auto]).
  destruct (loc_step e n L s0 s i true v rc s' K I R2) as [[-> J]|[-> (_ & _ & J & _)]]; [|destruct (fed _ _ _ G J)]. apply F; auto. apply R.
Qed.
Lemma copy_loc e n L s0 s i a v {A} (f : cmd A) Q : (forall k, grant e k = true) -> loc n L s0 s -> (i < length L)%nat -> has s a (ofZ v) ->
  (forall s', loc n (upd L i v) s0 s' -> (forall x, x <> (n + i)%nat -> mem s' x = mem s x) -> wp f e s' Q) -> wp (call copy (n + i) a; f) e s Q.
Proof.
  intros G K I V F. apply wp_bind. eapply wp_mono; [apply copy_ok; [exact V|eapply has_live; eapply loc_has; eauto]|]. intros rc s' R.
  assert (R2 : after e (n + length L) (n + i) true (ofZ v) s rc s') by (apply leaf_after; [lia|apply (loc_calm _ _ _ _ K)|auto]).
  destruct (loc_step e n L s0 s i true v rc s' K I R2) as [[-> J]|[-> (_ & _ & J & _)]]; [|destruct (fed _ _ _ G J)]. apply F; auto. apply R.
Qed.
Definition inverted (n r : nat) (a m : Z) (s : st) (rc : Z) (s' : st) : Prop :=
  calm n s' /\ keeps n r s s' /\
  (Z.gcd a m = 1 -> rc = 0 /\ exists w, has s' r (ofZ w) /\ 0 <= w < m /\ (a * w) mod m = 1 mod m) /\
  (Z.gcd a m <> 1 -> rc = -1 /\ mem s' r = mem s r).
Lemma inv_safe e s n r a m va vm : (forall k, grant e k = true) -> calm n s -> (r < n)%nat -> (a < n)%nat -> (m < n)%nat -> usable s r -> has s a (ofZ va) -> has s m (ofZ vm) ->
  0 < vm -> r <> m -> wp (inv_m n r a m) e s (inverted n r va vm s).
Proof.
  intros G C Lr La Lm U Ha Hm Pm RM. destruct (inv_ofZ va vm Pm) as [F1 F2].
  unfold inv_m. apply wp_bind. eapply wp_peek; eauto. unfold inv_fuel_m. apply loc_init; auto.
  2:{ intros s' _ _ S. destruct (fed _ _ _ G S). }
  cbn [repeat]. intros s1 K1 L1. eapply finally_clear with (P := fun rc s' => (forall x, (x < n)%nat -> x <> r -> mem s' x = mem s x) /\ (tick s <= tick s')%nat /\
    (Z.gcd va vm = 1 -> rc = 0 /\ exists w, has s' r (ofZ w) /\ 0 <= w < vm /\ (va * w) mod vm = 1 mod vm) /\ (Z.gcd va vm <> 1 -> rc = -1 /\ mem s' r = mem s r)).
  2:{ intros rc s2 s3 (P1 & P2 & P3 & P4) C3 M3 T3. split; auto. split; [split; [intros x Hx N; rewrite M3, P1 by auto; auto|lia]|]. split.
      - intro E. destruct (P3 E) as (-> & w & W1 & W2). split; auto. exists w. split; auto. eapply has_same; [apply M3; auto|auto].
      - intro E. destruct (P4 E) as (-> & W). split; auto. rewrite M3; auto. }
  rewrite <- (Nat.add_0_r n) at 1. eapply copy_loc; [exact G|exact K1|cbn; lia|eapply loc_out; eauto|]. cbn [upd]. intros s2 K2 M2.
  eapply copy_loc; [exact G|exact K2|cbn; lia|eapply loc_out; eauto|]. cbn [upd]. intros s3 K3 M3.
  eapply set_int_loc; [exact G|exact K3|cbn; lia|lia|]. cbn [upd]. intros s4 K4 M4.
  eapply set_int_loc; [exact G|exact K4|cbn; lia|lia|]. cbn [upd]. intros s5 K5 M5.
  assert (L5 : (2 <= len s5 (n + 4))%nat). { specialize (L1 4%nat ltac:(lia)). unfold len, dat, ob in *. rewrite M5, M4, M3, M2 by lia. lia. }
  clear M2 M3 M4 M5 L1 K1 K2 K3 K4.
  unfold inv in F1, F2. set (f := S (Z.to_nat (2 * count_bits (ofZ vm)))) in *. rewrite inv_first in F1, F2 by auto.
  assert (W : wp (inv_loop_m (S f) n) e s5 (fun _ s' => exists g sv c q, inv_loop f (ofZ vm) (ofZ (va mod vm)) (ofZ 0) (ofZ 1) = Ok (ofZ g, ofZ sv) /\ 0 <= g /\ loc n [g; 0; sv; c; q] s s')).
  { destruct (count_bits_spec vm ltac:(lia)) as (C1 & C2 & _). pose proof (Z.mod_pos_bound va vm Pm) as MB.
    destruct (inv_loop_ok vm va (Z.to_nat (2 * count_bits (ofZ vm))) vm (va mod vm) 0 1) as (sv & E & _).
    { apply egcd_init; auto. }
    { rewrite Z2Nat.id by lia. replace (2 * count_bits (ofZ vm)) with (count_bits (ofZ vm) + count_bits (ofZ vm)) by lia.
      rewrite Z.pow_add_r by lia. apply Z.mul_lt_mono_nonneg; lia. }
    fold f in E. cbn [inv_loop_m]. apply wp_bind. eapply loc_peek; [exact K5|cbn; lia|reflexivity|]. cbn [nth]. rewrite is_zero_ofZ. destruct (Z.eqb_spec vm 0); [lia|].
    destruct (div_outcome (ofZ va) (ofZ vm)) as (q & r' & ED & Wq & Wr & CC & _ & R); auto; [rewrite mval_ofZ; auto|].
    destruct (CC (canon_ofZ va)) as [Cq Cr]. assert (Er : r' = ofZ (va mod vm)).
    { pose proof (mod_ofZ va vm Pm) as M. unfold mod_ in M. rewrite ED in M. cbn [bind] in M. injection M as M. exact M. }
    rewrite Er, (canon_is_ofZ q Cq) in ED.
    eapply inv_round; [exact G|exact K5|lia|auto|exact ED|]. rewrite Z.mul_0_r, Z.sub_0_r. intros s6 K6.
    eapply wp_mono; [eapply inv_loop_m_ok; [exact G| | |exact K6|exact E]; lia|]. cbv beta. intros _ s7 (c & q' & K7). exists (Z.gcd va vm), sv, c, q'. split; auto. split; [apply Z.gcd_nonneg|auto]. }
  apply wp_bind. eapply wp_mono; [exact W|]. cbv beta. intros _ s6 (g & sv & c & q & E & Pg & K6). rewrite E in F1, F2. cbn [bind] in F1, F2. rewrite match_one in F1, F2 by auto. clear W E.
  apply wp_bind. eapply loc_peek0; [exact K6|cbn; lia|reflexivity|]. cbn [nth]. rewrite match_one by auto.
  destruct K6 as (C6 & M6 & T6 & H6). cbn [length] in *.
  assert (Lv : forall i, (i < 5)%nat -> live s6 (n + i)) by (intros i Hi; eapply has_live; apply H6; auto).
  destruct (Z.eqb_spec g 1) as [E1|E1].
  - assert (G1 : Z.gcd va vm = 1). { destruct (Z.eq_dec (Z.gcd va vm) 1) as [|X]; auto. specialize (F2 X). destruct (neg (ofZ sv)); [rewrite mod_ofZ in F2 by auto|]; discriminate. }
    destruct (F1 G1) as (w & E & W1 & W2). clear F1 F2.
    apply wp_bind. assert (Ur : usable s6 r) by (destruct U as (u & U); exists u; eapply has_same; [apply M6; auto|auto]).
    apply swap_ok; [apply usable_live; auto|apply Lv; lia|]. intros s7 S1 S2 S3 S4.
    assert (V7 : has s7 r (ofZ sv)) by (unfold has; rewrite S1; apply (H6 2%nat); lia).
    assert (C7 : calm (n + 5) s7) by (intros x Hx; rewrite S3 by lia; apply C6; auto).
    assert (Lv7 : forall i, (i < 5)%nat -> live s7 (n + i)).
    { intros i Hi. destruct (Nat.eq_dec i 2) as [->|N]; [unfold live; rewrite S2; apply usable_live; auto|]. unfold live. rewrite S3 by lia. apply Lv; auto. }
    apply wp_bind. eapply wp_peek; [exact V7|]. apply wp_bind. rewrite ofZ_neg in E |- *. destruct (Z.ltb_spec sv 0) as [L|L].
    + rewrite mod_ofZ in E by auto. assert (EW : w = sv mod vm) by (rewrite <- (mval_ofZ w), <- (mval_ofZ (sv mod vm)); congruence). subst w.
      eapply wp_mono; [eapply (mod_safe e s7 (n + 5) r r m sv vm); [exact C7|lia|lia|lia|exact V7| |eexists; exact V7|auto|auto]|].
      { eapply has_same; [rewrite S3, M6 by lia; reflexivity|exact Hm]. }
      intros rc s8 A. destruct (after_fed _ _ _ _ _ _ _ _ G A) as (-> & A1). destruct A as (A2 & (A3 & A4) & _). apply wp_ret.
      split; auto. split; [intros i Hi; unfold live; rewrite A3 by lia; apply Lv7; auto|].
      split; [intros x Hx N; rewrite A3, S3, M6 by lia; auto|]. split; [lia|]. split; [|contradiction].
      intros _. split; auto. exists (sv mod vm). auto.
    + apply wp_ret. apply wp_ret. split; auto. split; auto. assert (EW : w = sv) by (rewrite <- (mval_ofZ w), <- (mval_ofZ sv); congruence). subst w.
      split; [intros x Hx N; rewrite S3, M6 by lia; auto|]. split; [lia|]. split; [|contradiction]. intros _. split; auto. exists sv. auto.
  - assert (G1 : Z.gcd va vm <> 1) by (intro X; destruct (F1 X) as (w & E & _); discriminate).
    apply wp_bind. apply zero_ok; [apply Lv; lia|]. intros s7 (B1 & B2 & B3). apply wp_ret.
    split; [intros x Hx; rewrite B2 by lia; apply C6; auto|]. split.
    { intros i Hi. destruct (Nat.eq_dec i 2) as [->|N]; [unfold live; rewrite B1; discriminate|]. unfold live. rewrite B2 by lia. apply Lv; auto. }
    split; [intros x Hx N; rewrite B2, M6 by lia; auto|]. split; [lia|]. split; [contradiction|]. intros _. split; auto. rewrite B2, M6 by lia. auto.
Qed.
