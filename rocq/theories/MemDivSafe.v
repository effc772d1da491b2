(** Memory-level division and reduction of integers. *)
From Verif Require Import Base MpiModel MpiSpec MpiDigits MpiDivModel MpiCanon MpiDiv MemModel MemSpec Mem MemOps MemDivModel MemDivC MemDiv MemLeaf MemMulSafe.
Ltac Zify.zify_post_hook ::= idtac.

Lemma sgn_lt_abs x y : (Z.sgn (Z.abs x - Z.abs y) <? 0) = (Z.abs x <? Z.abs y).
Proof. destruct (Z.ltb_spec (Z.abs x) (Z.abs y)); [apply Z.ltb_lt|apply Z.ltb_ge]; lia. Qed.
Lemma nz_ofZ y : y <> 0 -> is_zero (ofZ y) = false.
Proof. intro. rewrite is_zero_ofZ. apply Z.eqb_neq; auto. Qed.

Lemma div_safe e s n rq rr a b x y : calm n s -> (a < n)%nat -> (b < n)%nat -> has s a (ofZ x) -> has s b (ofZ y) -> 0 <= x -> 0 < y ->
  (forall q, rq = Some q -> (q < n)%nat /\ usable s q /\ rr <> Some q) -> (forall r, rr = Some r -> (r < n)%nat /\ usable s r) ->
  wp (div_m n rq rr a b) e s (after2 e n rq rr (y <=? x) (ofZ (x / y)) (ofZ (x mod y)) s).
Proof.
  intros C La Lb Ha Hb X Y Q R. eapply wp_mono.
  - eapply (div_m_ok e n rq rr a b (ofZ x) (ofZ y)); eauto; try apply canon_ofZ.
    + intros q E. apply Q in E. apply E.
    + intros r E. apply R in E. apply E.
    + intros q E. apply Q in E. apply E.
    + intros r E. apply R in E. apply E.
    + intros q E. apply Q in E. apply E.
    + intro D. unfold differ in D. rewrite !ofZ_neg in D. destruct (Z.ltb_spec x 0), (Z.ltb_spec y 0); try lia; discriminate.
    + apply nz_ofZ. lia.
    + apply div_ofZ; auto.
  - intros rc s' K. rewrite cmp_abs_ofZ, sgn_lt_abs in K. rewrite !Z.abs_eq in K by lia. rewrite Z.leb_antisym. exact K.
Qed.

(** A negative dividend: the remainder is required and is not the divisor. *)
Lemma div_safe_neg e s n rq r a b x y : calm n s -> (a < n)%nat -> (b < n)%nat -> (r < n)%nat -> has s a (ofZ x) -> has s b (ofZ y) -> usable s r -> x < 0 -> 0 < y -> x mod y <> 0 -> r <> b ->
  (forall q, rq = Some q -> (q < n)%nat /\ usable s q /\ q <> r /\ q <> b /\ (- x < y -> exists o, mem s q = Some o /\ (2 <= length (o_da o))%nat)) ->
  wp (div_m n rq (Some r) a b) e s (after2 e n rq (Some r) (y <=? - x) (ofZ (x / y)) (ofZ (x mod y)) s).
Proof.
  intros C La Lb Lr Ha Hb Hr X Y NZ RB Q. eapply wp_mono.
  - eapply (div_m_ok e n rq (Some r) a b (ofZ x) (ofZ y) (ofZ (x / y)) (ofZ (x mod y))); eauto; try apply canon_ofZ.
    + intros q E. apply Q in E. apply E.
    + intros r' E. injection E as <-. auto.
    + intros q E. apply Q in E. apply E.
    + intros r' E. injection E as <-. auto.
    + intros q E. apply Q in E. destruct E as (_ & _ & E & _). congruence.
    + intros _. split; [exists r; auto|]. split; [intro E; destruct (Q _ E) as (_ & _ & _ & E' & _); auto|].
      rewrite cmp_abs_ofZ, sgn_lt_abs. rewrite Z.ltb_lt. intros L q E. destruct (Q _ E) as (_ & _ & _ & _ & F).
      destruct F as (o & O & F); [lia|]. unfold len, dat, ob. rewrite O. auto.
    + apply nz_ofZ. lia.
    + destruct (div_floor (ofZ x) (ofZ y)) as (q0 & r0 & E & Cq & Cr & Vq & Vr); auto; rewrite ?mval_ofZ in *; auto.
      rewrite E, (is_ofZ q0 _ Cq Vq), (is_ofZ r0 _ Cr Vr). reflexivity.
  - intros rc s' K. rewrite cmp_abs_ofZ, sgn_lt_abs in K. rewrite (Z.abs_neq x), (Z.abs_eq y) in K by lia. rewrite Z.leb_antisym. exact K.
Qed.

Lemma div_by_zero e s n rq rr a b x : has s a (ofZ x) -> has s b (ofZ 0) -> wp (div_m n rq rr a b) e s (fun rc s' => rc = -1 /\ s' = s).
Proof.
  intros Ha Hb. unfold div_m. apply wp_bind. eapply wp_peek; eauto. apply wp_bind. eapply wp_peek; eauto.
  apply wp_bind. eapply wp_mono; [eapply div_abs_m_zero; eauto; reflexivity|].
  cbv beta. intros rc s' [-> ->]. apply wp_ret. auto.
Qed.

Lemma after2_one e n r strong v w s rc s' : (r < n)%nat -> usable s r ->
  after2 e n None (Some r) strong v w s rc s' -> after e n r strong w s rc s'.
Proof.
  intros L U (K & M & T & H). split; auto. split; [split; auto|].
  - intros x Lx N. apply M; auto; congruence.
  - destruct H as [(R & _ & H)|(R & S & H)]; [left; auto|right]. split; auto. split; auto.
    destruct strong; [apply H; auto|]. apply (H r). auto.
Qed.
Lemma mod_safe e s n r a b x y : calm n s -> (a < n)%nat -> (b < n)%nat -> (r < n)%nat -> has s a (ofZ x) -> has s b (ofZ y) -> usable s r -> 0 < y -> 0 <= x \/ r <> b ->
  wp (mod_m n r a b) e s (after e n r (y <=? Z.abs x) (ofZ (x mod y)) s).
Proof.
  intros C La Lb Lr Ha Hb Hr Y D. unfold mod_m.
  destruct (div_outcome (ofZ x) (ofZ y)) as (qv & rv & F & _); try apply canon_ofZ; [rewrite mval_ofZ; lia|].
  assert (R : rv = ofZ (x mod y)). { pose proof (mod_ofZ x y Y) as M. unfold mod_ in M. rewrite F in M. cbn [bind] in M. injection M as M. exact M. }
  eapply wp_mono.
  - eapply (div_m_ok e n None (Some r) a b (ofZ x) (ofZ y) qv rv); eauto; try apply canon_ofZ; try discriminate.
    + intros r' E. injection E as <-. auto.
    + intros r' E. injection E as <-. auto.
    + intro E. unfold differ in E. rewrite !ofZ_neg in E. split; [|split; discriminate]. exists r. split; auto. destruct D; auto.
      destruct (Z.ltb_spec x 0), (Z.ltb_spec y 0); try lia; discriminate.
    + apply nz_ofZ. lia.
  - intros rc s' K. subst rv. rewrite cmp_abs_ofZ, sgn_lt_abs in K. rewrite (Z.abs_eq y) in K by lia. rewrite Z.leb_antisym.
    eapply after2_one; eauto.
Qed.
(** With enough memory the call succeeds. *)
Lemma after2_fed e n rq rr b v w s rc s' : (forall k, grant e k = true) -> after2 e n rq rr b v w s rc s' -> rc = 0 /\ holds s' rq v /\ holds s' rr w.
Proof. intros H (_ & _ & _ & [K|(_ & K & _)]); auto. destruct (fed _ _ _ H K). Qed.
