(** Memory-level model: routines whose locals hold integers. *)
From Verif Require Import Base Lists MpiModel MpiSpec MpiCanon MemModel MemSpec Mem MemOps MemShift MemLeaf MemSim.
Ltac Zify.zify_post_hook ::= idtac.

(** The locals n, n+1, ... hold the integers [L]; the caller's objects are as
    in [s0]. *)
Definition loc (n : nat) (L : list Z) (s0 s : st) : Prop :=
  calm (n + length L) s /\ (forall x, (x < n)%nat -> mem s x = mem s0 x) /\ (tick s0 <= tick s)%nat /\
  (forall i, (i < length L)%nat -> has s (n + i) (ofZ (nth i L 0))).
(** An allocation was refused; the locals can still be cleared. *)
Definition lost (e : env) (n k : nat) (s0 s : st) : Prop :=
  calm (n + k) s /\ (forall x, (x < n)%nat -> mem s x = mem s0 x) /\ starved e s0 s /\
  (forall i, (i < k)%nat -> usable s (n + i)).

Lemma loc_has n L s0 s i v : loc n L s0 s -> (i < length L)%nat -> nth i L 0 = v -> has s (n + i) (ofZ v).
Proof. intros (_ & _ & _ & H) I <-. auto. Qed.
Lemma loc_has0 n L s0 s v : loc n L s0 s -> (0 < length L)%nat -> nth 0 L 0 = v -> has s n (ofZ v).
Proof. intros H I E. rewrite <- (Nat.add_0_r n). eapply loc_has; eauto. Qed.
Lemma loc_out n L s0 s x v : loc n L s0 s -> (x < n)%nat -> has s0 x v -> has s x v.
Proof. intros (_ & H & _) L0 K. eapply has_same; [apply H; auto|auto]. Qed.
Lemma loc_calm n L s0 s : loc n L s0 s -> calm (n + length L) s.
Proof. intros (H & _). auto. Qed.
Lemma loc_step e n L s0 s i b v rc s' : loc n L s0 s -> (i < length L)%nat ->
  after e (n + length L) (n + i) b (ofZ v) s rc s' ->
  rc = 0 /\ loc n (upd L i v) s0 s' \/ rc = -1 /\ lost e n (length L) s0 s'.
Proof.
  intros (C & M & T & H) I (C' & (K & T') & D). destruct D as [(-> & V)|(-> & S & U)]; [left|right]; (split; [auto|]).
  - split; [rewrite upd_length; auto|]. split; [intros x Hx; rewrite K by lia; auto|]. split; [lia|].
    intros j Hj. rewrite upd_length in Hj. rewrite upd_nth by auto. destruct (Nat.eqb_spec j i) as [->|N]; [auto|].
    eapply has_same; [apply K; lia|auto].
  - split; [auto|]. split; [intros x Hx; rewrite K by lia; auto|]. split; [eapply starved_mono; [exact T| |exact S]; lia|].
    intros j Hj. destruct (Nat.eq_dec j i) as [->|N].
    + destruct b; [|auto]. exists (ofZ (nth i L 0)). eapply has_same; [exact U|auto].
    + exists (ofZ (nth j L 0)). eapply has_same; [apply K; lia|auto].
Qed.
Lemma loc_chk e n L s0 s i b v m f Q : loc n L s0 s -> (i < length L)%nat ->
  wp m e s (after e (n + length L) (n + i) b (ofZ v) s) ->
  (forall s', loc n (upd L i v) s0 s' -> wp f e s' Q) -> (forall s', lost e n (length L) s0 s' -> Q (-1) s') ->
  wp (chk m; f) e s Q.
Proof.
  intros H I W F G. apply wp_check. eapply wp_mono; [exact W|]. intros rc s' K.
  destruct (loc_step e n L s0 s i b v rc s' H I K) as [[-> J]|[-> J]]; cbn [Z.eqb]; auto.
Qed.
Lemma loc_last e n L s0 s i b v m (Q : Z -> st -> Prop) : loc n L s0 s -> (i < length L)%nat ->
  wp m e s (after e (n + length L) (n + i) b (ofZ v) s) ->
  (forall s', loc n (upd L i v) s0 s' -> Q 0 s') -> (forall s', lost e n (length L) s0 s' -> Q (-1) s') ->
  wp m e s Q.
Proof.
  intros H I W F G. eapply wp_mono; [exact W|]. intros rc s' K.
  destruct (loc_step e n L s0 s i b v rc s' H I K) as [[-> J]|[-> J]]; auto.
Qed.
(** with success known *)
Lemma loc_sure e n L s0 s i b v m (Q : Z -> st -> Prop) : loc n L s0 s -> (i < length L)%nat ->
  wp m e s (fun rc s' => rc = 0 /\ after e (n + length L) (n + i) b (ofZ v) s rc s') ->
  (forall s', loc n (upd L i v) s0 s' -> Q 0 s') -> wp m e s Q.
Proof.
  intros H I W F. eapply wp_mono; [exact W|]. intros rc s' [-> K].
  destruct (loc_step e n L s0 s i b v 0 s' H I K) as [[_ J]|[J _]]; [auto|discriminate].
Qed.
Lemma loc_peek e n L s0 s i v (Q : mpi -> st -> Prop) : loc n L s0 s -> (i < length L)%nat -> nth i L 0 = v -> Q (ofZ v) s -> wp (peek (n + i)) e s Q.
Proof. intros H I E K. eapply wp_peek; [eapply loc_has; eauto|auto]. Qed.
Lemma loc_peek0 e n L s0 s v (Q : mpi -> st -> Prop) : loc n L s0 s -> (0 < length L)%nat -> nth 0 L 0 = v -> Q (ofZ v) s -> wp (peek n) e s Q.
Proof. intros H I E K. eapply wp_peek; [eapply loc_has0; eauto|auto]. Qed.

Lemma in_locals n k x : In x (locals n k) <-> (n <= x < n + k)%nat.
Proof. apply in_seq. Qed.
Lemma loc_init e n k f s Q : calm n s ->
  (forall s', loc n (repeat 0 k) s s' -> (forall i, (i < k)%nat -> (8 <= len s' (n + i))%nat) -> wp f e s' Q) ->
  (forall s', calm n s' -> (forall x, (x < n)%nat -> mem s' x = mem s x) -> starved e s s' -> Q (-1) s') ->
  wp (chk init_list [] (locals n k); f) e s Q.
Proof.
  intros C F G. apply wp_check. eapply wp_mono; [apply init_list_ok; [apply seq_NoDup|intros x []]|].
  intros rc s' (M & T & [(-> & V & _)|(-> & S & _ & V)]); cbn [Z.eqb].
  - apply F.
    + split; [rewrite repeat_length; intros x Hx; rewrite M; [apply C; lia|rewrite in_locals; lia|auto]|].
      split; [intros x Hx; apply M; [rewrite in_locals; lia|auto]|]. split; [auto|].
      intros i Hi. rewrite repeat_length in Hi. rewrite nth_repeat. apply (V (n + i)%nat). apply in_locals. lia.
    + intros i Hi. apply (V (n + i)%nat). apply in_locals. lia.
  - apply G; auto.
    + intros x Hx. destruct (in_dec Nat.eq_dec x (locals n k)) as [I|I].
      * destruct (V x I) as [E|[E|E]]; auto. rewrite E. apply C; auto.
      * rewrite M by auto. apply C; auto.
    + intros x Hx. apply M; auto. rewrite in_locals. lia.
Qed.

(** State before the locals are cleared. *)
Definition fin (e : env) (n k r : nat) (strong : bool) (v : mpi) (s0 : st) (rc : Z) (s : st) : Prop :=
  calm (n + k) s /\ (forall x, (x < n)%nat -> x <> r -> mem s x = mem s0 x) /\ (tick s0 <= tick s)%nat /\
  (forall i, (i < k)%nat -> live s (n + i)) /\
  (rc = 0 /\ has s r v \/ rc = -1 /\ starved e s0 s /\ (if strong then mem s r = mem s0 r else usable s r)).
Lemma fin_lost e n k r v s0 s : (r < n)%nat -> lost e n k s0 s -> fin e n k r true v s0 (-1) s.
Proof.
  intros R (C & M & S & U). split; auto. split; [intros; apply M; auto|]. split; [destruct S as (t & S & _); lia|].
  split; [intros i Hi; apply usable_live; auto|]. right. auto.
Qed.
Lemma fin_clear e n k r b v s0 s body : (r < n)%nat -> wp body e s (fin e n k r b v s0) ->
  wp (finally body (clear_list (locals n k))) e s (after e n r b v s0).
Proof.
  intros R W. apply wp_finally. eapply wp_mono; [exact W|]. intros rc s1 (C & M & T & U & D).
  eapply wp_mono; [apply clear_list_ok|].
  - intros x Hx. apply in_locals in Hx. replace x with (n + (x - n))%nat by lia. apply U. lia.
  - intros t s2 (A1 & A2 & A3).
    assert (O : forall x, (x < n)%nat -> mem s2 x = mem s1 x) by (intros x Hx; apply A2; rewrite in_locals; lia).
    split; [|split; [split|]].
    + intros x Hx. destruct (in_dec Nat.eq_dec x (locals n k)) as [I|I]; [right; auto|]. rewrite A2 by auto. rewrite in_locals in I. apply C. lia.
    + intros x Hx N. rewrite O by auto. auto.
    + lia.
    + destruct D as [(-> & D)|(-> & S & D)]; [left|right]; (split; [auto|]).
      * eapply has_same; [apply O; auto|auto].
      * split; [eapply starved_mono; [reflexivity| |exact S]; lia|]. destruct b; [rewrite O; auto|].
        destruct D as (w & D). exists w. eapply has_same; [apply O; auto|auto].
Qed.
(** The result is swapped into place. *)
Lemma loc_swap e n L s0 s r i v : loc n L s0 s -> (i < length L)%nat -> nth i L 0 = v -> (r < n)%nat -> live s0 r ->
  wp (call swap r (n + i); ret 0) e s (fin e n (length L) r true (ofZ v) s0).
Proof.
  intros H I E R Lr. pose proof (loc_has n L s0 s i v H I E) as V. destruct H as (C & M & T & H). apply wp_bind.
  assert (Ls : live s r) by (unfold live; rewrite M; auto).
  apply swap_ok; [exact Ls|eapply has_live; eauto|]. intros s1 S1 S2 S3 S4. apply wp_ret.
  split; [intros x Hx; rewrite S3 by lia; apply C; auto|]. split; [intros x Hx N; rewrite S3 by lia; auto|]. split; [lia|].
  split; [|left; split; auto; destruct V as (o & V1 & V2); exists o; rewrite S1; auto].
  intros j Hj. unfold live. destruct (Nat.eq_dec j i) as [->|N]; [rewrite S2; auto|]. rewrite S3 by lia. eapply has_live; apply H; auto.
Qed.
