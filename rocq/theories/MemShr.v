(** Right shifts of negative numbers in memory. *)
From Verif Require Import Base Lists Bits MpiModel MpiSpec MpiDigits MpiArith MpiCanon MemModel MemSpec Mem MemOps MemShift MemLeaf.

Lemma shr_quot x k : 0 <= k -> 0 <= x \/ 2 ^ k <= - x -> shr (ofZ x) k = ofZ (Z.quot x (2 ^ k)).
Proof.
  intros Hk H. destruct (shr_mval (ofZ x) k (canon_wf _ (canon_ofZ x)) Hk) as [W V]. rewrite mval_ofZ in V.
  destruct H as [H|H]; [rewrite shr_ofZ, Z.quot_div_nonneg by (auto; pose proof (pow2_pos k Hk); lia); reflexivity|].
  apply is_ofZ; [|exact V]. split; [exact W|]. intro E. exfalso. pose proof (pow2_pos k Hk) as P.
  unfold mval in V. rewrite E in V. cbn [val] in V. assert (Q : Z.quot x (2 ^ k) = - (- x / 2 ^ k)) by (rewrite <- Z.quot_div_nonneg, Z.quot_opp_l by lia; lia). rewrite Q in V. clear Q.
  assert (1 <= - x / 2 ^ k) by (apply Z.div_le_lower_bound; lia). destruct (neg (shr (ofZ x) k)); cbn [Z.opp] in V; lia.
Qed.
Lemma shr_gone x k : 0 <= k -> - x < 2 ^ k -> x < 0 -> exists b, shr (ofZ x) k = mkmpi b [].
Proof.
  intros Hk H Hx. destruct (shr_spec (ofZ x) k (canon_wf _ (canon_ofZ x)) Hk) as (W & V & _). rewrite ofZ_val in V. rewrite Z.div_small in V by lia.
  destruct (shr (ofZ x) k) as [b l]. cbn [dg] in V. exists b. f_equal. destruct W as [D N]. cbn [dg] in D, N. apply normal_val_zero; auto.
Qed.
Lemma shr_any e s n r a k x : calm n s -> (r < n)%nat -> usable s r -> has s a (ofZ x) -> 0 <= k -> 0 <= x \/ 2 ^ k <= - x ->
  wp (shr_m r a k) e s (after e n r true (ofZ (Z.quot x (2 ^ k))) s).
Proof. intros C R U A K X. rewrite <- shr_quot by auto. eapply wp_mono; [apply shr_m_ok; [exact A|apply usable_live; auto]|]. intros rc s' [L _]. apply leaf_after; auto. Qed.
Lemma shr_zero e s n r a k x : calm n s -> (r < n)%nat -> usable s r -> has s a (ofZ x) -> 0 <= k -> - x < 2 ^ k -> x < 0 ->
  exists b, wp (shr_m r a k) e s (after e n r true (mkmpi b []) s).
Proof.
  intros C R U A K H X. destruct (shr_gone x k K H X) as [b E]. exists b. rewrite <- E. eapply wp_mono; [apply shr_m_ok; [exact A|apply usable_live; auto]|]. intros rc s' [L _]. apply leaf_after; auto.
Qed.
