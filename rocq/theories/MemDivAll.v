(** Division in memory for every pair of signs. *)
From Verif Require Import Base MpiModel MpiSpec MpiDigits MpiDivModel MpiCanon MpiDiv MemModel MemSpec Mem MemOps MemDivModel MemDivC MemDiv MemLeaf MemMulSafe MemDivSafe.

Lemma div_all e s n rq rr a b x y : calm n s -> (a < n)%nat -> (b < n)%nat -> has s a (ofZ x) -> has s b (ofZ y) -> y <> 0 ->
  (forall q, rq = Some q -> (q < n)%nat /\ usable s q /\ rr <> Some q) -> (forall r, rr = Some r -> (r < n)%nat /\ usable s r) ->
  let opp := xorb (x <? 0) (y <? 0) in let A := Z.abs x in let D := Z.abs y in
  (opp = true -> (exists r, rr = Some r /\ r <> b) /\ rq <> Some b /\ (A < D -> forall q o, rq = Some q -> mem s q = Some o -> (2 <= length (o_da o))%nat)) ->
  wp (div_m n rq rr a b) e s (after2 e n rq rr (D <=? A)
    (ofZ (if opp then if A mod D =? 0 then A / D else - (A / D) - 1 else A / D))
    (ofZ (if opp then if A mod D =? 0 then 0 else D - A mod D else if A <? D then x else A mod D)) s).
Proof.
  intros C La Lb Ha Hb Y Q R opp A D O.
  destruct (div_outcome (ofZ x) (ofZ y)) as (qv & rv & E & _ & _ & CC & V); [apply canon_wf, canon_ofZ|apply canon_wf, canon_ofZ|rewrite mval_ofZ; exact Y|].
  destruct (CC (canon_ofZ x)) as [Cq Cr]. cbv zeta in V. rewrite !mval_ofZ, !ofZ_neg in V. fold opp A D in V. destruct V as [Vq Vr].
  apply (is_ofZ _ _ Cq) in Vq. apply (is_ofZ _ _ Cr) in Vr. rewrite <- Vq, <- Vr. eapply wp_mono.
  - eapply (div_m_ok e n rq rr a b (ofZ x) (ofZ y)); eauto; try apply canon_ofZ.
    + intros q F. apply Q in F. apply F.
    + intros r F. apply R in F. apply F.
    + intros q F. apply Q in F. apply F.
    + intros r F. apply R in F. apply F.
    + intros q F. apply Q in F. apply F.
    + intro F. unfold differ in F. rewrite !ofZ_neg in F. assert (T : opp = true) by (unfold opp; exact F).
      destruct (O T) as (O1 & O2 & O3). split; [exact O1|]. split; [exact O2|]. rewrite cmp_abs_ofZ, sgn_lt_abs, Z.ltb_lt. intros L q G.
      destruct (Q q G) as (_ & (v & o & Ho & _) & _). unfold len, dat, ob. rewrite Ho. exact (O3 L q o G Ho).
    + apply nz_ofZ. exact Y.
  - intros rc s' K. rewrite cmp_abs_ofZ, sgn_lt_abs in K. fold A D in K. rewrite Z.leb_antisym. exact K.
Qed.
