(** Memory-level multiplication and squaring of integers. *)
From Verif Require Import Base MpiModel MpiSpec MpiDigits MpiMulModel MpiMul2 MpiCanon MpiDiv MpiAlg MemModel MemSpec Mem MemOps MemMulModel MemLeaf MemMul MemSim MemToom.
Ltac Zify.zify_post_hook ::= idtac.

Lemma used_bound z k : Z.abs z < 2 ^ (64 * Z.of_nat k) -> (used (ofZ z) <= k)%nat.
Proof. intro H. apply wf_len_le; [apply canon_ofZ|]. rewrite ofZ_val, Bn_pow2. exact H. Qed.
Lemma has_reduce s x v : has s x v -> usable s x.
Proof. exists v; auto. Qed.
Lemma mul_safe e s n r a b x y : calm n s -> (r < n)%nat -> (a < n)%nat -> (b < n)%nat -> usable s r -> has s a (ofZ x) -> has s b (ofZ y) ->
  wp (mul_m n r a b) e s (after e n r false (ofZ (x * y)) s).
Proof.
  intros C R Ra Rb (w & W) A D. eapply wp_mono; [eapply mul_m_ok; [exact C|exact R|exact Ra|exact Rb|exact A|exact D|exact W|apply mul_ofZ]|].
  intros rc s' K. eapply after_weak; [exists w; exact W|exact K].
Qed.
Lemma mul_safe_small e s n r a b x y : calm n s -> (r < n)%nat -> (a < n)%nat -> (b < n)%nat -> usable s r -> has s a (ofZ x) -> has s b (ofZ y) ->
  Z.abs x < 2 ^ (64 * 300) \/ Z.abs y < 2 ^ (64 * 300) -> wp (mul_m n r a b) e s (after e n r true (ofZ (x * y)) s).
Proof.
  intros C R Ra Rb (w & W) A D H. eapply wp_mono; [eapply mul_m_ok; [exact C|exact R|exact Ra|exact Rb|exact A|exact D|exact W|apply mul_ofZ]|].
  intros rc s' K. replace (Nat.min (used (ofZ x)) (used (ofZ y)) <=? 300)%nat with true in K; auto. symmetry. apply Nat.leb_le.
  destruct H as [H|H]; [pose proof (used_bound x 300 H)|pose proof (used_bound y 300 H)]; clear - H0; lia.
Qed.
Lemma sqr_safe e s n r a x w : calm n s -> (r < n)%nat -> (a < n)%nat -> has s r w -> has s a (ofZ x) -> r = a \/ neg w = false ->
  wp (sqr_m n r a) e s (after e n r true (ofZ (x * x)) s).
Proof.
  intros C R Ra W A H. eapply sqr_m_ok; [exact C|exact R|exact Ra|exact A|exact W|]. destruct (Nat.eqb_spec r a) as [E|E]; [apply sqr_ofZ|].
  destruct H as [H|H]; [contradiction|]. rewrite H. apply sqr_ofZ.
Qed.
Lemma mul_dig_ofZ rs x d : 0 <= d < B -> (d = 0 -> rs = false) -> mul_dig rs (ofZ x) d = Ok (ofZ (x * d)).
Proof.
  intros Hd H. destruct (Z.eq_dec d 0) as [->|N].
  - rewrite (H eq_refl). destruct (mul_dig_spec false (ofZ x) 0) as (r & E & W & V & C & _); [apply canon_ofZ|exact Hd|]. rewrite E. f_equal. apply is_ofZ; [apply C; auto|]. rewrite V, mval_ofZ. reflexivity.
  - unfold mul_dig. replace (mkmpi false [d]) with (ofZ d); [apply mul_ofZ|]. symmetry. apply is_ofZ.
    + split; [split; [apply digits_cons; split; auto; constructor|apply normal_one; auto]|discriminate].
    + unfold mval. cbn [neg dg val]. clear. lia.
Qed.
Lemma mul_dig_safe e s n r a x d w : calm n s -> (r < n)%nat -> (a < n)%nat -> has s r w -> has s a (ofZ x) -> 0 <= d < B -> d <> 0 \/ r = a \/ neg w = false ->
  wp (mul_dig_m n r a d) e s (after e n r true (ofZ (x * d)) s).
Proof.
  intros C R Ra W A Hd H. eapply mul_dig_m_ok; [exact C|exact R|exact Ra|exact A|exact W|]. apply mul_dig_ofZ; auto. intros ->. destruct (Nat.eqb_spec r a); auto.
  destruct H as [H|[H|H]]; auto; contradiction.
Qed.
(** With enough memory the call succeeds. *)
Lemma fed e s s' : (forall k, grant e k = true) -> ~ starved e s s'.
Proof. intros H (k & _ & K). rewrite H in K. discriminate. Qed.
Lemma after_fed e n r b v s rc s' : (forall k, grant e k = true) -> after e n r b v s rc s' -> rc = 0 /\ has s' r v.
Proof. intros H (_ & _ & [K|(_ & K & _)]); auto. destruct (fed _ _ _ H K). Qed.
