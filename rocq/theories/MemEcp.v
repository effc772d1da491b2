(** Memory-level point addition and doubling, while no allocation is refused. *)
From Coq Require Import Znumtheory.
From Verif Require Import Base Lists MpiModel MpiSpec MpiDigits MpiMulModel MpiCanon MpiDivModel MpiDiv MpiAlgModel MpiAlg MpiAlg2 Pk NumTh EcpModel EcSpec EcZ EcpSpec Ecp MemModel MemMulModel MemDivModel MemAlgModel MemSpec Mem MemOps MemShift MemLeaf MemMul MemSim MemToom MemMulSafe MemDiv MemDivSafe MemLoc MemGcd MemExp MemInv MemEcpModel MemEcpSpec.
Ltac Zify.zify_post_hook ::= idtac.

(** * Single steps *)
Lemma after_narrow e m k r b v s rc s' : (k <= m)%nat -> (r < k)%nat -> calm k s -> after e m r b v s rc s' -> after e k r b v s rc s'.
Proof.
  intros Hk Hr C (C' & (K & T) & D). split; [|split; [split|]]; auto.
  - intros x Hx. destruct (Nat.lt_ge_cases x m) as [L|L]; [|apply C'; auto]. rewrite K by lia. apply C. auto.
  - intros x Hx N. apply K; auto. lia.
Qed.
(** the one-object call succeeds *)
Definition onto (n r : nat) (v : mpi) (s s' : st) : Prop :=
  calm n s' /\ (forall x, (x < n)%nat -> x <> r -> mem s' x = mem s x) /\ (tick s <= tick s')%nat /\ has s' r v.
Lemma sure e m n r b v s M (Q : Z -> st -> Prop) : (forall k, grant e k = true) -> (n <= m)%nat -> (r < n)%nat -> calm n s ->
  wp M e s (after e m r b v s) -> (forall s', onto n r v s s' -> Q 0 s') -> wp M e s Q.
Proof.
  intros G Hn Hr C W F. eapply wp_mono; [exact W|]. intros rc s' A. eapply after_narrow in A; eauto.
  destruct (after_fed _ _ _ _ _ _ _ _ G A) as (-> & V). destruct A as (A1 & (A2 & A3) & _). apply F. split; auto.
Qed.
Lemma sure_chk e m n r b v s M f (Q : Z -> st -> Prop) : (forall k, grant e k = true) -> (n <= m)%nat -> (r < n)%nat -> calm n s ->
  wp M e s (after e m r b v s) -> (forall s', onto n r v s s' -> wp f e s' Q) -> wp (chk M; f) e s Q.
Proof. intros G Hn Hr C W F. apply wp_check. eapply (sure e m n); eauto. Qed.
Lemma sure_call {A} e m n r b v s M (f : cmd A) Q : (forall k, grant e k = true) -> (n <= m)%nat -> (r < n)%nat -> calm n s ->
  wp M e s (after e m r b v s) -> (forall s', onto n r v s s' -> wp f e s' Q) -> wp (call M; f) e s Q.
Proof. intros G Hn Hr C W F. apply wp_bind. eapply (sure e m n); eauto. Qed.
Lemma calm_le k n s : calm k s -> (k <= n)%nat -> calm n s.
Proof. intros C H x Hx. apply C. lia. Qed.
Lemma has_usable s x v : has s x v -> usable s x.
Proof. exists v. auto. Qed.
Lemma usable_same s s' x : mem s' x = mem s x -> usable s x -> usable s' x.
Proof. intros E (v & V). exists v. eapply has_same; eauto. Qed.

Lemma copy_after e s n r a v : calm n s -> (r < n)%nat -> usable s r -> has s a v -> wp (copy r a) e s (after e n r true v s).
Proof. intros C L U V. eapply wp_mono; [apply copy_ok; [exact V|apply usable_live; auto]|]. intros rc s' K. apply leaf_after; auto. Qed.
Lemma set_int_after e s n r v : calm n s -> (r < n)%nat -> usable s r -> - 2 ^ 63 < v < 2 ^ 63 -> wp (MemModel.set_int r v) e s (after e n r true (ofZ v) s).
Proof. intros C L U V. eapply wp_mono; [apply set_int_leaf; [apply usable_live; auto|auto]|]. intros rc s' K. apply leaf_after; auto. Qed.

(** * Points *)
Lemma point_same s s' x P : (forall i, (i < 3)%nat -> mem s' (x + i) = mem s (x + i)) -> point s x P -> point s' x P.
Proof.
  intros H (A & B & C). split; [|split].
  - eapply has_same; [|exact A]. specialize (H 0%nat). rewrite Nat.add_0_r in H. apply H. lia.
  - eapply has_same; [apply H; lia|auto].
  - eapply has_same; [apply H; lia|auto].
Qed.
Lemma point_usable s x P : point s x P -> usable_pt s x.
Proof. intros (A & B & C). split; [|split]; eapply has_usable; eauto. Qed.
Lemma usable_pt_same s s' x : (forall i, (i < 3)%nat -> mem s' (x + i) = mem s (x + i)) -> usable_pt s x -> usable_pt s' x.
Proof.
  intros H (A & B & C). split; [|split].
  - eapply usable_same; [|exact A]. specialize (H 0%nat). rewrite Nat.add_0_r in H. apply H. lia.
  - eapply usable_same; [apply H; lia|auto].
  - eapply usable_same; [apply H; lia|auto].
Qed.
Lemma group_point s g p am b G N : group s g p am b G N -> point s (g + 3) G.
Proof. intros (_ & _ & _ & H & _). exact H. Qed.
Lemma group_same s s' g p am b G N : (forall i, (i < 7)%nat -> mem s' (g + i) = mem s (g + i)) -> group s g p am b G N -> group s' g p am b G N.
Proof.
  intros H (A & B & C & D & E). split; [|split; [|split; [|split]]].
  - eapply has_same; [|exact A]. specialize (H 0%nat). rewrite Nat.add_0_r in H. apply H. lia.
  - eapply has_same; [apply H; lia|auto].
  - eapply has_same; [apply H; lia|auto].
  - eapply point_same; [|exact D]. intros i Hi. rewrite <- Nat.add_assoc. apply H. lia.
  - eapply has_same; [apply H; lia|auto].
Qed.

Lemma pt_copy_ok e s n r x P : (forall k, grant e k = true) -> calm n s -> (r + 2 < n)%nat -> (x + 2 < n)%nat -> usable_pt s r -> point s x P -> (r + 2 < x \/ x + 2 < r)%nat ->
  wp (pt_copy_m r x) e s (result n r P s).
Proof.
  intros G C L Lx (U1 & U2 & U3) (A1 & A2 & A3) D. unfold pt_copy_m.
  eapply (sure_chk e n n); [exact G|lia|idtac|exact C|apply copy_after; [exact C|idtac|exact U1|exact A1]|]; [lia..|]. intros s1 (C1 & F1 & T1 & V1).
  eapply (sure_chk e n n); [exact G|lia|idtac|exact C1|apply copy_after; [exact C1|idtac|eapply usable_same; [apply F1; lia|exact U2]|eapply has_same; [apply F1; lia|exact A2]]|]; [lia..|]. intros s2 (C2 & F2 & T2 & V2).
  eapply (sure e n n); [exact G|lia|idtac|exact C2|apply copy_after; [exact C2|idtac|eapply usable_same; [rewrite F2, F1 by lia; reflexivity|exact U3]|eapply has_same; [rewrite F2, F1 by lia; reflexivity|exact A3]]|]; [lia..|]. intros s3 (C3 & F3 & T3 & V3).
  split; [auto|]. split; [|split; [auto|split; [lia|]]].
  - split; [|split].
    + eapply has_same; [rewrite F3, F2 by lia; reflexivity|exact V1].
    + eapply has_same; [apply F3; lia|exact V2].
    + exact V3.
  - intros y Hy N. rewrite F3, F2, F1 by lia. reflexivity.
Qed.
Lemma pt_move_ok e s n r x P : (forall k, grant e k = true) -> calm n s -> (r + 2 < n)%nat -> (x + 2 < n)%nat -> usable_pt s r -> point s x P -> same_or_apart r x ->
  wp (pt_move_m r x) e s (result n r P s).
Proof.
  intros G C L Lx U A D. unfold pt_move_m. destruct (Nat.eqb_spec r x) as [->|N].
  - apply wp_ret. split; auto.
  - apply pt_copy_ok; auto. destruct D as [D|D]; [contradiction|auto].
Qed.
Lemma set_zero_ok e s n r : (forall k, grant e k = true) -> calm n s -> (r + 2 < n)%nat -> usable_pt s r -> wp (set_zero_m r) e s (fun _ s' => result n r None s 0 s').
Proof.
  intros G C L (U1 & U2 & U3). unfold set_zero_m.
  eapply (sure_call e n n); [exact G|lia|idtac|exact C|apply set_int_after; [exact C|idtac|exact U1|lia]|]; [lia..|]. intros s1 (C1 & F1 & T1 & V1).
  eapply (sure_call e n n); [exact G|lia|idtac|exact C1|apply set_int_after; [exact C1|idtac|eapply usable_same; [apply F1; lia|exact U2]|lia]|]; [lia..|]. intros s2 (C2 & F2 & T2 & V2).
  eapply (sure_call e n n); [exact G|lia|idtac|exact C2|apply set_int_after; [exact C2|idtac|eapply usable_same; [rewrite F2, F1 by lia; reflexivity|exact U3]|lia]|]; [lia..|]. intros s3 (C3 & F3 & T3 & V3).
  apply wp_ret. split; [auto|]. split; [|split; [auto|split; [lia|]]].
  - cbn [ept ecp_zero]. split; [|split].
    + eapply has_same; [rewrite F3, F2 by lia; reflexivity|exact V1].
    + eapply has_same; [apply F3; lia|exact V2].
    + exact V3.
  - intros y Hy N. rewrite F3, F2, F1 by lia. reflexivity.
Qed.
Lemma pt_zero_ok e s x P (Q : bool -> st -> Prop) : point s x P -> Q (match P with None => true | Some _ => false end) s -> wp (pt_zero_m x) e s Q.
Proof. intros (_ & _ & H) K. unfold pt_zero_m. apply wp_bind. eapply wp_peek; [exact H|]. apply wp_ret. destruct P as [[x1 y1]|]; exact K. Qed.

(** * Locals *)
Definition vloc (n : nat) (V : list mpi) (s0 s : st) : Prop :=
  calm (n + length V) s /\ (forall x, (x < n)%nat -> mem s x = mem s0 x) /\ (tick s0 <= tick s)%nat /\ (forall i, (i < length V)%nat -> has s (n + i) (nth i V mzero)).
Lemma vloc_has n V s0 s i v : vloc n V s0 s -> (i < length V)%nat -> nth i V mzero = v -> has s (n + i) v.
Proof. intros (_ & _ & _ & H) I <-. auto. Qed.
Lemma vloc_has0 n V s0 s v : vloc n V s0 s -> (0 < length V)%nat -> nth 0 V mzero = v -> has s n v.
Proof. intros H I E. rewrite <- (Nat.add_0_r n). eapply vloc_has; eauto. Qed.
Lemma vloc_out n V s0 s x v : vloc n V s0 s -> (x < n)%nat -> has s0 x v -> has s x v.
Proof. intros (_ & H & _) L0 K. eapply has_same; [apply H; auto|auto]. Qed.
Lemma vloc_calm n V s0 s m : vloc n V s0 s -> (n + length V <= m)%nat -> calm m s.
Proof. intros (H & _) L. eapply calm_le; eauto. Qed.
Lemma vloc_chk e n V s0 s i m b v M f Q : (forall k, grant e k = true) -> vloc n V s0 s -> (i < length V)%nat -> (n + length V <= m)%nat ->
  wp M e s (after e m (n + i) b v s) -> (forall s', vloc n (upd V i v) s0 s' -> wp f e s' Q) -> wp (chk M; f) e s Q.
Proof.
  intros G (C & F & T & H) I L W K. eapply (sure_chk e m (n + length V) (n + i)); [exact G|exact L|lia|exact C|exact W|].
  intros s' (C' & F' & T' & V'). apply K. split; [rewrite upd_length; auto|]. split; [intros x Hx; rewrite F' by lia; auto|]. split; [lia|].
  intros j Hj. rewrite upd_length in Hj. rewrite upd_nth by auto. destruct (Nat.eqb_spec j i) as [->|N]; [auto|].
  eapply has_same; [apply F'; lia|auto].
Qed.
Lemma vloc_chk0 e n V s0 s m b v M f Q : (forall k, grant e k = true) -> vloc n V s0 s -> (0 < length V)%nat -> (n + length V <= m)%nat ->
  wp M e s (after e m n b v s) -> (forall s', vloc n (upd V 0 v) s0 s' -> wp f e s' Q) -> wp (chk M; f) e s Q.
Proof. intros. eapply vloc_chk with (i := 0%nat); eauto. rewrite Nat.add_0_r. eauto. Qed.
Lemma vloc_init e n V k f s0 s Q : (forall i, grant e i = true) -> vloc n V s0 s ->
  (forall s', vloc n (V ++ repeat mzero k) s0 s' -> wp f e s' Q) -> wp (chk init_list [] (locals (n + length V) k); f) e s Q.
Proof.
  intros G (C & F & T & H) K. apply loc_init; [exact C| |intros s' _ _ S; destruct (fed _ _ _ G S)].
  intros s1 (C1 & F1 & T1 & H1) _. rewrite repeat_length in *. apply K. split; [rewrite app_length, repeat_length, Nat.add_assoc; auto|].
  split; [intros x Hx; rewrite F1 by lia; auto|]. split; [lia|]. intros i Hi. rewrite app_length, repeat_length in Hi.
  destruct (Nat.lt_ge_cases i (length V)) as [L|L].
  - rewrite app_nth1 by auto. eapply has_same; [apply F1; lia|auto].
  - rewrite app_nth2 by auto. specialize (H1 (i - length V)%nat ltac:(lia)). rewrite nth_repeat in *. replace (n + length V + (i - length V))%nat with (n + i)%nat in H1 by lia. exact H1.
Qed.
Lemma vloc_nil n s : calm n s -> vloc n [] s s.
Proof. intro C. split; [cbn [length]; rewrite Nat.add_0_r; auto|]. split; auto. split; auto. intros i Hi. cbn in Hi. lia. Qed.

(** State before locals are cleared. *)
Definition vfin (n k r : nat) (P : ecpoint) (s0 : st) (rc : Z) (s : st) : Prop :=
  calm (n + k) s /\ (forall x, (x < n)%nat -> ~ (r <= x < r + 3)%nat -> mem s x = mem s0 x) /\ (tick s0 <= tick s)%nat /\ (forall i, (i < k)%nat -> live s (n + i)) /\ rc = 0 /\ point s r P.
Lemma vfin_clear e n j k r P s0 s body : (r + 2 < n)%nat -> wp body e s (vfin n (j + k) r P s0) ->
  wp (finally body (clear_list (locals (n + j) k))) e s (vfin n j r P s0).
Proof.
  intros R W. eapply finally_clear with (P := vfin n (j + k) r P s0).
  - eapply wp_mono; [exact W|]. intros rc s1 V. pose proof V as (C & _ & _ & L & _). split; [rewrite <- Nat.add_assoc; auto|]. split; [|exact V].
    intros i Hi. rewrite <- Nat.add_assoc. apply L. lia.
  - intros rc s1 s2 (C & F & T & L & -> & V) C2 M2 T2. split; auto. split; [intros x Hx N; rewrite M2 by lia; auto|]. split; [lia|].
    split; [intros i Hi; unfold live; rewrite M2 by lia; apply L; lia|]. split; auto. eapply point_same; [|exact V]. intros i Hi. apply M2. lia.
Qed.
Lemma vfin_clear0 e n k r P s0 s body : (r + 2 < n)%nat -> wp body e s (vfin n k r P s0) ->
  wp (finally body (clear_list (locals n k))) e s (vfin n 0 r P s0).
Proof. intros R W. rewrite <- (Nat.add_0_r n) at 1. apply vfin_clear; auto. Qed.
Lemma vfin_result n r P s0 rc s : vfin n 0 r P s0 rc s -> result n r P s0 rc s.
Proof. intros (C & F & T & _ & -> & V). rewrite Nat.add_0_r in C. split; auto. Qed.
(** The result is swapped into place. *)
Lemma vloc_swap e n V s0 s r i k P : vloc n V s0 s -> k = length V -> (i + 2 < length V)%nat -> point s (n + i) P -> (r + 2 < n)%nat -> usable_pt s0 r ->
  wp (call pt_swap_m r (n + i); ret 0) e s (vfin n k r P s0).
Proof.
  intros (C & F & T & H) -> I (P1 & P2 & P3) R (U1 & U2 & U3). unfold pt_swap_m.
  assert (L : forall j, (j < length V)%nat -> live s (n + j)) by (intros j Hj; eapply has_live; apply H; auto).
  apply wp_bind, wp_bind. apply swap_ok; [apply usable_live; eapply usable_same; [apply F; lia|exact U1]|apply L; lia|]. intros s1 S1 S2 S3 S4.
  apply wp_bind. apply swap_ok; [unfold live; rewrite S3, F by lia; apply usable_live; exact U2|unfold live; rewrite S3 by lia; rewrite <- Nat.add_assoc; apply L; lia|]. intros s2 A1 A2 A3 A4.
  apply swap_ok; [unfold live; rewrite A3, S3, F by lia; apply usable_live; exact U3|unfold live; rewrite A3, S3 by lia; rewrite <- Nat.add_assoc; apply L; lia|]. intros s3 B1 B2 B3 B4.
  apply wp_ret. split; [|split; [|split; [lia|split; [|split; [auto|split; [|split]]]]]].
  - intros x Hx. rewrite B3, A3, S3 by lia. apply C. auto.
  - intros x Hx N. rewrite B3, A3, S3 by lia. apply F. auto.
  - intros j Hj. unfold live. destruct (Nat.eq_dec j i) as [->|N1]; [rewrite B3, A3, S2 by lia; rewrite F by lia; apply usable_live; auto|].
    destruct (Nat.eq_dec j (i + 1)) as [->|N2]; [rewrite Nat.add_assoc, B3, A2 by lia; rewrite S3, F by lia; apply usable_live; auto|].
    destruct (Nat.eq_dec j (i + 2)) as [->|N3]; [rewrite Nat.add_assoc, B2; rewrite A3, S3, F by lia; apply usable_live; auto|].
    rewrite B3, A3, S3 by lia. apply L; auto.
  - unfold has. rewrite B3, A3, S1 by lia. exact P1.
  - unfold has. rewrite B3, A1 by lia. rewrite S3 by lia. exact P2.
  - unfold has. rewrite B1. rewrite A3, S3 by lia. exact P3.
Qed.
Lemma vloc_last e n V s0 s i m b v M (Q : Z -> st -> Prop) : (forall k, grant e k = true) -> vloc n V s0 s -> (i < length V)%nat -> (n + length V <= m)%nat ->
  wp M e s (after e m (n + i) b v s) -> (forall s', vloc n (upd V i v) s0 s' -> Q 0 s') -> wp M e s Q.
Proof.
  intros G (C & F & T & H) I L W K. eapply (sure e m (n + length V) (n + i)); [exact G|exact L|lia|exact C|exact W|].
  intros s' (C' & F' & T' & V'). apply K. split; [rewrite upd_length; auto|]. split; [intros x Hx; rewrite F' by lia; auto|]. split; [lia|].
  intros j Hj. rewrite upd_length in Hj. rewrite upd_nth by auto. destruct (Nat.eqb_spec j i) as [->|N]; [auto|].
  eapply has_same; [apply F'; lia|auto].
Qed.

Ltac vval K := first [eapply vloc_has; [exact K|cbn [length]; lia|reflexivity] | eapply vloc_has0; [exact K|cbn [length]; lia|reflexivity] | eapply vloc_out; [exact K|lia|eassumption]].
Ltac vcalm K := eapply vloc_calm; [exact K|cbn [length]; lia].
Ltac vuse K := eapply has_usable; vval K.
Ltac by_sqr K := eapply sqr_safe; [vcalm K|lia|lia|vval K|vval K|right; reflexivity].
Ltac by_mul K := apply mul_safe; [vcalm K|lia|lia|lia|vuse K|vval K|vval K].
Ltac by_mod K := apply mod_safe; [vcalm K|lia|lia|lia|vval K|vval K|vuse K|lia|right; lia].
Ltac by_sub K := eapply sub_safe; [exact (proj1 K)|cbn [length]; lia|vuse K|vval K|vval K].
Ltac by_set K := eapply set_int_after; [exact (proj1 K)|cbn [length]; lia|vuse K|lia].
(* one call with the local [i] as destination *)
Ltac vstep0 G K tac := eapply vloc_chk0; [exact G|exact K|cbn [length]; lia| |tac K|]; [cbn [length]; lia|cbn [upd]; clear K; intros ? K].
Ltac vstep G K i tac := eapply (vloc_chk _ _ _ _ _ i); [exact G|exact K|cbn [length]; lia| |tac K|]; [cbn [length]; lia|cbn [upd]; clear K; intros ? K].

Lemma third_chk e n s0 s p1 x2 g nu de l p x1 y1 x2v f Q : (forall k, grant e k = true) -> vloc n [nu; de; ofZ l; mzero; mzero; mzero] s0 s ->
  (p1 + 1 < n)%nat -> (x2 < n)%nat -> (g < n)%nat -> has s0 p1 (ofZ x1) -> has s0 (p1 + 1) (ofZ y1) -> has s0 x2 (ofZ x2v) -> has s0 g (ofZ p) -> 0 < p ->
  (forall s', vloc n [nu; de; ofZ l; ex (ept (ec_third p l x1 y1 x2v)); ey (ept (ec_third p l x1 y1 x2v)); ofZ 1] s0 s' -> wp f e s' Q) ->
  wp (chk third_m (n + 6) (n + 2) p1 x2 g; f) e s Q.
Proof.
  intros G K L1 L2 L3 H1 H2 H3 H4 Hp F. unfold third_m. cbv zeta. rewrite <- !(Nat.add_assoc n 2). cbn [Nat.add]. apply wp_check.
  change mzero with (ofZ 0) in K.
  vstep G K 3%nat by_sqr. vstep G K 3%nat by_mod. vstep G K 3%nat by_sub. vstep G K 3%nat by_sub. vstep G K 3%nat by_mod.
  vstep G K 4%nat by_sub. vstep G K 4%nat by_mul. vstep G K 4%nat by_mod. vstep G K 4%nat by_sub. vstep G K 4%nat by_mod.
  eapply (vloc_last _ _ _ _ _ 5); [exact G|exact K|cbn [length]; lia| |by_set K|]; [cbn [length]; lia|cbn [upd]; clear K; intros ? K].
  rewrite Z.eqb_refl. apply F. cbn [ec_third ept ex ey].
  assert (Ex : ((l * l) mod p - x1 - x2v) mod p = (l * l - x1 - x2v) mod p).
  { apply mod_sub; [auto| |reflexivity]. apply mod_sub; [auto| |reflexivity]. apply Zmod_mod. }
  rewrite Ex in K. replace ((l * (x1 - (l * l - x1 - x2v) mod p) - y1) mod p) with (((x1 - (l * l - x1 - x2v) mod p) * l mod p - y1) mod p); [exact K|].
  apply mod_sub; [auto| |reflexivity]. rewrite Zmod_mod. f_equal. ring.
Qed.

Lemma vloc_init0 e n k f s Q : (forall i, grant e i = true) -> calm n s ->
  (forall s', vloc n (repeat mzero k) s s' -> wp f e s' Q) -> wp (chk init_list [] (locals n k); f) e s Q.
Proof.
  intros G C K. pose proof (vloc_init e n [] k f s s Q G (vloc_nil n s C) K) as H. cbn [length] in H. rewrite Nat.add_0_r in H. exact H.
Qed.

(** * Inversion modulo a prime *)
Lemma inv_after e s n r a m x p : (forall k, grant e k = true) -> calm n s -> (r < n)%nat -> (a < n)%nat -> (m < n)%nat -> usable s r -> has s a (ofZ x) -> has s m (ofZ p) ->
  prime p -> 2 < p -> ~ (p | x) -> r <> m -> wp (inv_m n r a m) e s (after e n r true (ofZ (minv p x)) s).
Proof.
  intros G C Lr La Lm U Ha Hm Pp P2 N RM. eapply wp_mono; [apply (inv_safe e s n r a m x p); auto; lia|].
  intros rc s' (C' & K & I & _). split; auto. split; auto. left.
  destruct I as (-> & w & W & Hw & E).
  { apply Zgcd_1_rel_prime. apply rel_prime_sym. apply prime_rel_prime; auto. }
  split; auto. replace (minv p x) with w; [exact W|]. pose proof (minv_ok p Pp x N) as M'. rewrite Z.mod_1_l in E by lia.
  assert (E1 : w mod p = (w * (minv p x * x)) mod p).
  { rewrite Z.mul_mod, M', Z.mul_1_r, Zmod_mod by lia. reflexivity. }
  rewrite Z.mod_small in E1 by lia. rewrite E1. replace (w * (minv p x * x)) with (minv p x * (x * w)) by ring. rewrite Z.mul_mod, E, Z.mul_1_r, Zmod_mod by lia.
  unfold minv. apply Zmod_mod.
Qed.

(** * The numerator of the slope of the tangent *)
Definition one_zero : mpi := mkmpi false [0].
Lemma add_after e s n r a b va vb v : calm n s -> (r < n)%nat -> usable s r -> has s a va -> has s b vb -> add va vb = Ok v -> wp (add_m r a b) e s (after e n r true v s).
Proof. intros C L U A D F. eapply wp_mono; [eapply add_m_ok; [exact A|exact D|apply usable_live; auto|exact F]|]. intros rc s' [K _]. apply leaf_after; auto. Qed.
Lemma mod_one_zero e s n r b p : calm n s -> (r < n)%nat -> has s r one_zero -> has s b (ofZ p) -> 0 < p -> wp (mod_m n r r b) e s (after e n r true one_zero s).
Proof.
  intros C L A Hb Hp. unfold mod_m, div_m. apply wp_bind. eapply wp_peek; [exact A|]. apply wp_bind. eapply wp_peek; [exact Hb|].
  assert (N : neg (ofZ p) = false) by (rewrite ofZ_neg; lia). assert (Z0 : is_zero (ofZ p) = false) by (rewrite is_zero_ofZ; lia).
  assert (Cm : cmp_abs one_zero (ofZ p) <? 0 = true).
  { pose proof (ofZ_val p) as V. destruct (ofZ p) as [sg l] eqn:E. cbn [neg dg is_zero] in *. unfold cmp_abs, used, one_zero. cbn [dg length].
    destruct l as [|x [|y l]]; [discriminate Z0| |reflexivity]. cbn [Nat.ltb Nat.leb length cmp_digs Z.eqb]. cbn [val] in V. destruct (Z.ltb_spec 0 x); [reflexivity|lia]. }
  apply wp_check. unfold div_abs_m. apply wp_bind. eapply wp_peek; [exact A|]. apply wp_bind. eapply wp_peek; [exact Hb|]. rewrite Z0, Cm.
  apply wp_bind. unfold copy. rewrite Nat.eqb_refl. apply wp_ret. apply wp_bind. apply wp_ret. apply wp_ret. rewrite Z.eqb_refl, N. cbn [one_zero neg xorb]. apply wp_ret.
  split; auto. split; [split; auto|]. left. auto.
Qed.
Lemma slope_mem e n V s0 s g p am a v f Q : (forall k, grant e k = true) -> vloc n (ofZ v :: V) s0 s -> (n + S (length V) <= n + 6)%nat -> (g + 1 < n)%nat -> has s0 g (ofZ p) -> has s0 (g + 1) am -> a_rep am a -> 0 < p -> 0 <= v ->
  (forall m2 s', vloc n (m2 :: V) s0 s' -> (forall d, mul false m2 (ofZ d) = Ok (ofZ (((v + a) mod p) * d))) -> wp f e s' Q) ->
  wp (chk add_m n n (g + 1); chk mod_m (n + 6) n n g; f) e s Q.
Proof.
  intros G K L Lg Hg Ha R Hp Hv F. assert (D : a_rep am a /\ (add (ofZ v) am = Ok (ofZ (v + a)) \/ v = 0 /\ a = 0 /\ am = one_zero)).
  { split; auto. destruct R as [->|[-> ->]]; [left; apply add_ofZ|]. destruct (Z.eq_dec v 0) as [->|N]; [right; auto|]. left. rewrite Z.add_0_r. apply add_unnorm. lia. }
  destruct D as [_ [E|(-> & -> & ->)]].
  - eapply vloc_chk0; [exact G|exact K|cbn [length]; lia| |eapply add_after; [exact (proj1 K)|cbn [length]; lia|vuse K|vval K|vval K|exact E]|]; [cbn [length]; lia|].
    cbn [upd]. clear K. intros s1 K. eapply vloc_chk0; [exact G|exact K|cbn [length]; lia| |by_mod K|]; [cbn [length]; lia|]. cbn [upd]. clear K. intros s2 K.
    apply (F (ofZ ((v + a) mod p))); auto. intro d. apply mul_ofZ.
  - eapply vloc_chk0; [exact G|exact K|cbn [length]; lia| |eapply (add_after _ _ _ _ _ _ _ _ one_zero); [exact (proj1 K)|cbn [length]; lia|vuse K|vval K|vval K|reflexivity]|]; [cbn [length]; lia|].
    cbn [upd]. clear K. intros s1 K. eapply vloc_chk0; [exact G|exact K|cbn [length]; lia| |eapply (mod_one_zero _ _ (n + 6)); [vcalm K|lia|vval K|vval K|auto]|]; [cbn [length]; lia|].
    cbn [upd]. clear K. intros s2 K. apply (F one_zero); auto. intro d. rewrite Z.mod_0_l by lia. apply mul_unnorm.
Qed.

(** * cry_ecp_dbl *)
Lemma vloc_point n V s0 s i P : vloc n V s0 s -> (i + 2 < length V)%nat -> nth i V mzero = ex (ept P) -> nth (i + 1) V mzero = ey (ept P) -> nth (i + 2) V mzero = ez (ept P) -> point s (n + i) P.
Proof.
  intros K I E1 E2 E3. split; [|split].
  - eapply vloc_has; [exact K|lia|exact E1].
  - rewrite <- Nat.add_assoc. eapply vloc_has; [exact K|lia|exact E2].
  - rewrite <- Nat.add_assoc. eapply vloc_has; [exact K|lia|exact E3].
Qed.
Section Curve.
Variables (p a b : Z) (am : mpi).
Hypothesis HA : a_rep am a.
Hypothesis HG : good_curve p a b.
Variables (BG : ecpoint) (N : Z).
Let Pp : prime p. Proof. exact (proj1 HG). Qed.
Let P2 : 2 < p. Proof. exact (proj1 (proj2 HG)). Qed.

Theorem dbl_mem e s n r x g P : (forall k, grant e k = true) -> calm n s -> (r + 2 < n)%nat -> (x + 2 < n)%nat -> (g + 6 < n)%nat ->
  usable_pt s r -> point s x P -> group s g p am b BG N -> same_or_apart r x -> on_curve p a b P -> (forall x, P <> Some (x, 0)) ->
  wp (ecp_dbl_m n r x g) e s (result n r (ec_add p a P P) s).
Proof.
  intros G C Lr Lx Lg U HP HGr SA OC N0. unfold ecp_dbl_m. apply wp_bind. eapply pt_zero_ok; [exact HP|].
  destruct P as [[x1 y1]|]; [|apply pt_move_ok; auto]. destruct OC as (Hx & Hy & _).
  assert (Ny : y1 <> 0) by (intros ->; apply (N0 x1); reflexivity).
  assert (N2 : ~ (p | 2 * y1)).
  { intro D. apply prime_mult in D; [|exact Pp]. destruct D as [D|D]; [apply Z.divide_pos_le in D; lia|apply (small_div p y1); auto; lia]. }
  destruct HP as (HX & HY & _). cbn [ept ex ey] in HX, HY. destruct HGr as (Hg & Ha & _).
  apply vloc_init0; auto. cbn [repeat]. intros s1 K. eapply wp_mono; [|intros rc s'; apply vfin_result]. apply vfin_clear0; auto.
  vstep0 G K by_set. vstep0 G K by_mul. vstep0 G K by_mul. vstep0 G K by_mod.
  eapply (slope_mem _ _ _ _ _ _ p am a); [exact G|exact K|cbn [length]; lia|lia|exact Hg|exact Ha|exact HA|lia|apply Z.mod_pos_bound; lia|]. clear K. intros m2 s2 K M2.
  vstep G K 1%nat by_set. vstep G K 1%nat by_mul.
  eapply (vloc_chk _ _ _ _ _ 1); [exact G|exact K|cbn [length]; lia| |eapply (inv_after _ _ (n + 6)); [exact G|vcalm K|lia|lia|lia|vuse K|vval K|vval K|exact Pp|exact P2|exact N2|lia]|]; [cbn [length]; lia|]. cbn [upd]. clear K. intros s3 K.
  vstep G K 1%nat by_mod.
  eapply (vloc_chk _ _ _ _ _ 2); [exact G|exact K|cbn [length]; lia| |eapply (mul_m_ok e (n + 6)%nat); [vcalm K|lia|lia|lia|vval K|vval K|vval K|]|]; [cbn [length]; lia|destruct (_ || _)%bool; apply M2|]. cbn [upd]. clear K. intros s4 K.
  vstep G K 1%nat by_mod.
  eapply third_chk; [exact G|exact K|lia|lia|lia|exact HX|exact HY|exact HX|exact Hg|lia|]. clear K. intros s5 K.
  assert (E : ec_third p (((3 * x1 * x1) mod p + a) mod p * (minv p (2 * y1) mod p)) x1 y1 x1 = ec_add p a (Some (x1, y1)) (Some (x1, y1))).
  { cbn [ec_add]. rewrite Z.eqb_refl. destruct (Z.eqb_spec ((y1 + y1) mod p) 0) as [Z|_].
    { exfalso. apply N2. apply Z.mod_divide; [lia|]. rewrite <- Z. f_equal. lia. }
    apply third_cong; [lia|]. apply mod_mul; [lia| |apply Zmod_mod].
    rewrite Zmod_mod. apply mod_add; [lia| |reflexivity]. rewrite Zmod_mod. f_equal. ring. }
  rewrite <- E. eapply (vloc_swap e n _ s s5 r 3); [exact K|reflexivity|cbn [length]; lia|eapply vloc_point; [exact K|cbn [length]; lia|reflexivity..]|auto|auto].
Qed.

(** a callee's result, seen with the locals of the caller *)
Lemma result_vfin n V s0 s m r P rc s' : vloc n V s0 s -> (n + length V <= m)%nat -> (r + 2 < n)%nat -> result m r P s rc s' -> vfin n (length V) r P s0 rc s'.
Proof.
  intros (C & F & T & H) L R (-> & V' & C' & T' & F'). split.
  { intros x Hx. destruct (Nat.lt_ge_cases x m); [rewrite F' by lia; apply C; auto|apply C'; auto]. }
  split; [intros x Hx N1; rewrite F' by lia; apply F; auto|]. split; [lia|]. split; [|auto].
  intros i Hi. unfold live. rewrite F' by lia. eapply has_live. apply H. auto.
Qed.
Theorem add_mem e s n r x y g P Q : (forall k, grant e k = true) -> calm n s -> (r + 2 < n)%nat -> (x + 2 < n)%nat -> (y + 2 < n)%nat -> (g + 6 < n)%nat ->
  usable_pt s r -> point s x P -> point s y Q -> group s g p am b BG N -> same_or_apart r x -> same_or_apart r y ->
  on_curve p a b P -> on_curve p a b Q -> ~ (P = Q /\ exists x, P = Some (x, 0)) ->
  wp (ecp_add_m n r x y g) e s (result n r (ec_add p a P Q) s).
Proof.
  intros G C Lr Lx Ly Lg U HP HQ HGr SAx SAy OC1 OC2 N0. unfold ecp_add_m. apply wp_bind. eapply pt_zero_ok; [exact HP|].
  destruct P as [[x1 y1]|]; [|apply pt_move_ok; auto]. apply wp_bind. eapply pt_zero_ok; [exact HQ|].
  destruct Q as [[x2 y2]|]; [|apply pt_move_ok; auto]. pose proof OC1 as (Hx1 & Hy1 & C1). pose proof OC2 as (Hx2 & Hy2 & C2).
  pose proof HP as (HX1 & HY1 & _). pose proof HQ as (HX2 & HY2 & _). cbn [ept ex ey] in HX1, HY1, HX2, HY2. pose proof HGr as (Hg & _).
  apply vloc_init0; auto. cbn [repeat]. intros s1 K. eapply wp_mono; [|intros rc s'; apply vfin_result]. apply vfin_clear0; auto.
  vstep0 G K by_sub. vstep0 G K by_mod. vstep G K 1%nat by_sub. vstep G K 1%nat by_mod.
  apply wp_bind. eapply wp_peek; [vval K|]. cbn [nth]. rewrite is_zero_ofZ. destruct (Z.eqb_spec ((x2 - x1) mod p) 0) as [E|E].
  - assert (Ex : x1 = x2) by (apply Z.mod_divide in E; [|lia]; apply (div_abs_lt p) in E; lia). subst x2.
    apply wp_bind. eapply wp_peek; [vval K|]. cbn [nth]. rewrite is_zero_ofZ.
    assert (Cm : forall m, (n + 2 <= m)%nat -> calm m s'2) by (intros m Hm; eapply calm_le; [exact (proj1 K)|exact Hm]).
    assert (Fr : forall z, (z < n)%nat -> mem s'2 z = mem s z) by apply K.
    assert (U' : usable_pt s'2 r) by (eapply usable_pt_same; [|exact U]; intros; apply Fr; lia).
    destruct (Z.eqb_spec ((y2 - y1) mod p) 0) as [Ey|Ey].
    + assert (E' : y2 = y1) by (apply Z.mod_divide in Ey; [|lia]; apply (div_abs_lt p) in Ey; lia). subst y2.
      eapply wp_mono; [eapply (dbl_mem e _ (n + 6)); [exact G|apply Cm; lia|lia|lia|lia|exact U'| | |exact SAx|exact OC1|]|].
      * eapply point_same; [|exact HP]. intros; apply Fr; lia.
      * eapply group_same; [|exact HGr]. intros; apply Fr; lia.
      * intros z E'. apply N0. split; [reflexivity|exists z; exact E'].
      * intros rc s9 R. apply (result_vfin _ _ _ _ _ _ _ _ _ K) in R; [exact R|cbn [length]; lia|lia].
    + apply wp_bind. eapply wp_mono; [eapply (set_zero_ok e _ (n + 2)); [exact G|apply Cm; lia|lia|exact U']|]. intros t s9 R. apply wp_ret.
      cbn [ec_add]. rewrite Z.eqb_refl. destruct (Z.eqb_spec ((y1 + y2) mod p) 0) as [_|Nz].
      { apply (result_vfin _ _ _ _ _ _ _ _ _ K) in R; [exact R|cbn [length]; lia|lia]. }
      exfalso. rewrite <- C1 in C2. apply divide_mod_eq in C2; [|lia]. replace (y2 * y2 - y1 * y1) with ((y2 - y1) * (y1 + y2)) in C2 by ring.
      apply prime_mult in C2; [|exact Pp]. destruct C2 as [D|D]; apply Z.mod_divide in D; lia.
  - assert (Nd : ~ (p | (x2 - x1) mod p)).
    { intro D. apply Z.mod_divide in D; [|lia]. rewrite Zmod_mod in D. contradiction. }
    eapply (vloc_init e n [_; _] 4); [exact G|exact K|]. cbn [app repeat]. clear K. intros s2 K. apply (vfin_clear e n 2 4); auto.
    eapply (vloc_chk _ _ _ _ _ 1); [exact G|exact K|cbn [length]; lia| |eapply (inv_after _ _ (n + 6)); [exact G|vcalm K|lia|lia|lia|vuse K|vval K|vval K|exact Pp|exact P2|exact Nd|lia]|]; [cbn [length]; lia|]. cbn [upd]. clear K. intros s3 K.
    change mzero with (ofZ 0) in K. vstep G K 2%nat by_mul. vstep G K 2%nat by_mod.
    eapply third_chk; [exact G|exact K|lia|lia|lia|exact HX1|exact HY1|exact HX2|exact Hg|lia|]. clear K. intros s5 K.
    assert (E' : ec_third p (((y2 - y1) mod p * minv p ((x2 - x1) mod p)) mod p) x1 y1 x2 = ec_add p a (Some (x1, y1)) (Some (x2, y2))).
    { cbn [ec_add]. destruct (Z.eqb_spec x1 x2) as [->|_]; [rewrite Z.sub_diag, Z.mod_0_l in E by lia; contradiction|].
      apply third_cong; [lia|]. rewrite Zmod_mod. apply mod_mul; [lia|apply Zmod_mod|]. unfold minv. rewrite !Zmod_mod. apply mod_pow; [lia..|apply Zmod_mod]. }
    rewrite <- E'. eapply (vloc_swap e n _ s s5 r 3); [exact K|reflexivity|cbn [length]; lia|eapply vloc_point; [exact K|cbn [length]; lia|reflexivity..]|auto|auto].
Qed.
End Curve.
