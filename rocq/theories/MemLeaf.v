(** Memory-level model: the routines without local objects, over the integers. *)
From Verif Require Import Base Lists MpiModel MpiSpec MpiCanon MemModel MemSpec Mem MemOps MemShift.

Lemma leaf_after e n r b v s rc s' : (r < n)%nat -> calm n s -> leaf e r b v s rc s' -> after e n r b v s rc s'.
Proof.
  intros L C (A & T & D). split; [intros x Hx; rewrite A by lia; apply C; auto|]. split; [split; auto|]. tauto.
Qed.
Lemma usable_live s x : usable s x -> live s x.
Proof. intros (v & H). eapply has_live; eauto. Qed.

Lemma copy_safe e s n r a x : calm n s -> (r < n)%nat -> usable s r -> has s a (ofZ x) -> wp (copy r a) e s (after e n r true (ofZ x) s).
Proof. intros C R U A. eapply wp_mono; [apply copy_ok; [exact A|apply usable_live; auto]|]. intros rc s' K. apply leaf_after; auto. Qed.
Lemma abs_safe e s n r a x : calm n s -> (r < n)%nat -> usable s r -> has s a (ofZ x) -> wp (abs r a) e s (after e n r true (ofZ (Z.abs x)) s).
Proof. intros C R U A. rewrite <- abs_ofZ. eapply wp_mono; [apply abs_ok; [exact A|apply usable_live; auto]|]. intros rc s' K. apply leaf_after; auto. Qed.
Lemma add_safe e s n r a b x y : calm n s -> (r < n)%nat -> usable s r -> has s a (ofZ x) -> has s b (ofZ y) ->
  wp (add_m r a b) e s (after e n r true (ofZ (x + y)) s).
Proof.
  intros C R U A D. eapply wp_mono; [eapply add_m_ok; [exact A|exact D|apply usable_live; auto|apply add_ofZ]|]. intros rc s' [K _]. apply leaf_after; auto.
Qed.
Lemma sub_safe e s n r a b x y : calm n s -> (r < n)%nat -> usable s r -> has s a (ofZ x) -> has s b (ofZ y) ->
  wp (sub_m r a b) e s (after e n r true (ofZ (x - y)) s).
Proof.
  intros C R U A D. eapply wp_mono; [eapply sub_m_ok; [exact A|exact D|apply usable_live; auto|apply sub_ofZ]|]. intros rc s' [K _]. apply leaf_after; auto.
Qed.
Lemma shl_safe e s n r a k x : calm n s -> (r < n)%nat -> usable s r -> has s a (ofZ x) -> 0 <= k ->
  wp (shl_m r a k) e s (after e n r (Nat.eqb a r) (ofZ (x * 2 ^ k)) s).
Proof. intros C R U A K. rewrite <- shl_ofZ by auto. eapply wp_mono; [apply shl_m_ok; [exact A|exact U]|]. intros rc s' L. apply leaf_after; auto. Qed.
Lemma shr_safe e s n r a k x : calm n s -> (r < n)%nat -> usable s r -> has s a (ofZ x) -> 0 <= k -> 0 <= x ->
  wp (shr_m r a k) e s (after e n r true (ofZ (x / 2 ^ k)) s).
Proof. intros C R U A K X. rewrite <- shr_ofZ by auto. eapply wp_mono; [apply shr_m_ok; [exact A|apply usable_live; auto]|]. intros rc s' [L _]. apply leaf_after; auto. Qed.
Lemma shr_here e s n a k x : calm n s -> (a < n)%nat -> has s a (ofZ x) -> 0 <= k -> 0 <= x ->
  wp (shr_m a a k) e s (fun rc s' => rc = 0 /\ after e n a true (ofZ (x / 2 ^ k)) s rc s').
Proof.
  intros C R A K X. rewrite <- shr_ofZ by auto. eapply wp_mono; [apply shr_m_ok; [exact A|eapply has_live; eauto]|]. intros rc s' [L Z0]. split; [apply Z0; auto|apply leaf_after; auto].
Qed.
