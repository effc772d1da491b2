(** Memory-level division: src/mpi/mpi_div.c. *)
From Verif Require Import Base Bits Lists MpiModel MpiSpec MpiDigits MpiMulModel MpiMul MpiMul2 MpiCanon MpiDivModel MemModel MemMulModel MemDivModel MemSpec Mem MemOps MemShift MemLeaf MemMul MemRec MemToom MpiDiv MemDivA MemDivB MemDivC.
Ltac Zify.zify_post_hook ::= idtac.

(** * Operations that find their buffer large enough do not fail *)
Lemma add_ord_fits e r a b va vb s : has s a va -> has s b vb -> live s r -> (used vb <= used va)%nat -> (used va + 1 <= len s r)%nat ->
  wp (add_abs_ord r a b) e s (fun rc _ => rc = 0).
Proof.
  intros Ha Hb Lr Hu Hl. unfold add_abs_ord. destruct (has_elim _ _ _ Ha) as (La & Ua & _ & Ea & Na). destruct (has_elim _ _ _ Hb) as (Lb & Ub & _ & Eb & Nb).
  apply wp_bind. apply wp_get; auto. apply wp_bind. apply wp_get; auto. rewrite Ua, Ub. cbv zeta.
  apply wp_check. apply ensure_enough; auto. cbn [Z.eqb].
  apply wp_shape; auto. intros s2 B2. apply wp_bind.
  assert (LL : forall y, len s2 y = len s y) by (intro y; unfold len; rewrite (becomes_dat _ _ _ _ _ y B2); reflexivity).
  eapply wp_mono; [apply add_loop_ok; try (eapply becomes_live_o; [exact B2|auto]); rewrite ?LL; lia|].
  replace (used vb + (used va - used vb))%nat with (used va) by lia.
  intros cy s3 (R & LR & K & D). destruct (cy =? 0); [apply wp_ret; auto|].
  assert (L2 : live s2 r) by (eapply becomes_live; exact B2). assert (L3 : live s3 r) by (eapply chg_live; eauto).
  assert (LN : (used va < len s3 r)%nat).
  { unfold len. rewrite (chg_dat _ _ _ _ K). unfold over. rewrite !app_length, skipn_length. cbn [firstn length Nat.add]. specialize (LL r). unfold len in LL, Hl. lia. }
  apply wp_bind. apply wp_wr; auto. apply wp_bind. apply wp_set_us; [apply live_wput; auto|]. apply wp_ret. auto.
Qed.
Lemma sub_fits e r a b va vb s : has s a va -> has s b vb -> live s r -> neg va <> neg vb -> (Nat.max (used va) (used vb) + 1 <= len s r)%nat ->
  wp (sub_m r a b) e s (fun rc _ => rc = 0).
Proof.
  intros Ha Hb Lr N Hl. unfold sub_m. apply wp_bind. eapply wp_peek; eauto. apply wp_bind. eapply wp_peek; eauto.
  replace (Bool.eqb (neg va) (neg vb)) with false by (revert N; clear; destruct (neg va), (neg vb); intro N; try reflexivity; contradiction N; reflexivity). cbn [negb].
  unfold with_sign. apply wp_check.
  assert (H : wp (add_abs_m r a b) e s (fun rc _ => rc = 0)).
  { destruct (has_elim _ _ _ Ha) as (La & Ua & _). destruct (has_elim _ _ _ Hb) as (Lb & Ub & _).
    unfold add_abs_m. apply wp_bind. apply wp_get; auto. apply wp_bind. apply wp_get; auto. rewrite Ua, Ub.
    destruct (Nat.ltb_spec (used va) (used vb)); [apply (add_ord_fits e r b a vb va s)|apply (add_ord_fits e r a b va vb s)]; auto; lia. }
  eapply wp_mono; [apply wp_and; [exact H|apply (add_abs_m_ok e r a b va vb s); auto]|]. intros rc s1 (-> & (_ & _ & [(_ & V & _)|(E & _)])); [|discriminate].
  cbn [Z.eqb]. apply wp_bind. apply wp_set_sg; [eapply has_live; eauto|]. apply wp_ret. auto.
Qed.
Lemma sub_abs_fits e r a b va vb v s : has s a va -> has s b vb -> live s r -> sub_abs va vb = Ok v -> (used va <= len s r)%nat ->
  wp (sub_abs_m r a b) e s (fun rc _ => rc = 0).
Proof.
  intros Ha Hb Lr F Hl. unfold sub_abs in F. unfold sub_abs_m. apply wp_bind. eapply wp_peek; eauto. apply wp_bind. eapply wp_peek; eauto.
  destruct (cmp_abs va vb <? 0) eqn:C; [discriminate|]. destruct (sub_loop (dg va) (dg vb) 0) as [R0|] eqn:F0; [|discriminate]. injection F as <-.
  assert (Hu : (used vb <= used va)%nat). { unfold cmp_abs in C. destruct (Nat.ltb_spec (used va) (used vb)); [discriminate|lia]. }
  cbv zeta. apply wp_check. apply ensure_enough; auto. cbn [Z.eqb].
  destruct (has_elim _ _ _ Ha) as (La1 & _ & _ & Ea & Na). destruct (has_elim _ _ _ Hb) as (Lb1 & _ & _ & Eb & Nb).
  apply wp_shape; auto. intros s2 B2. apply wp_bind.
  assert (LL : forall y, len s2 y = len s y) by (intro y; unfold len; rewrite (becomes_dat _ _ _ _ _ y B2); reflexivity).
  eapply wp_mono; [apply sub_loop_ok; try (eapply becomes_live_o; [exact B2|auto]); rewrite ?LL; lia|].
  replace (used vb + (used va - used vb))%nat with (used va) by lia.
  intros cy s3 (R & LR & K & D). unfold seg in D. cbn [skipn] in D. rewrite !(becomes_dat _ _ _ _ _ _ B2), Ea, Eb in D.
  destruct D as [[-> D]|[-> D]]; [|congruence]. cbn [Z.eqb].
  assert (L2 : live s2 r) by (eapply becomes_live; exact B2). assert (L3 : live s3 r) by (eapply chg_live; eauto).
  apply wp_bind. apply madjust_ok; [auto| |intros; apply wp_ret; auto].
  rewrite (becomes_ob _ _ _ _ K). cbn [o_us]. rewrite (becomes_ob _ _ _ _ B2). cbn [o_us]. unfold len. rewrite (chg_dat _ _ _ _ K). unfold over. rewrite !app_length, skipn_length. cbn [firstn length Nat.add]. lia.
Qed.

(** * The signed routine *)
Definition differ (va vb : mpi) : bool := xorb (neg va) (neg vb).
Lemma used_quot va vb qv rv : wf va -> wf vb -> is_zero vb = false -> div_abs va vb = Ok (qv, rv) -> (used qv <= used va)%nat /\ wf qv /\ wf rv /\ val (dg rv) < val (dg vb) /\ neg qv = false.
Proof.
  intros Wa Wb NZ F. rewrite is_zero_val in NZ by auto. apply Z.eqb_neq in NZ. destruct (div_abs_ok va vb Wa Wb NZ) as (q & r & E & Wq & Wr & Vq & Vr & Nq & _).
  rewrite E in F. injection F as <- <-. pose proof (val_nonneg _ (proj1 Wa)). pose proof (val_nonneg _ (proj1 Wb)).
  pose proof (Z.mod_pos_bound (val (dg va)) (val (dg vb)) ltac:(lia)). repeat split; auto; try apply Wq; try apply Wr; try lia.
  apply wf_len_le; auto. rewrite Vq. pose proof (val_lt _ (proj1 Wa)) as L. fold (used va) in L.
  assert (val (dg va) / val (dg vb) <= val (dg va)) by (apply Z.div_le_upper_bound; [lia|]; nia). lia.
Qed.
Lemma div_m_ok e n rq rr a b va vb qv rv s : wf va -> wf vb -> calm n s -> (a < n)%nat -> (b < n)%nat -> has s a va -> has s b vb -> below n rq -> below n rr ->
  (forall x, rq = Some x -> usable s x) -> (forall x, rr = Some x -> usable s x) -> (forall x, rq = Some x -> rr <> Some x) ->
  (differ va vb = true -> (exists r, rr = Some r /\ r <> b) /\ rq <> Some b /\ (cmp_abs va vb <? 0 = true -> forall x, rq = Some x -> (2 <= len s x)%nat)) ->
  is_zero vb = false -> div va vb = Ok (qv, rv) ->
  wp (div_m n rq rr a b) e s (after2 e n rq rr (negb (cmp_abs va vb <? 0)) qv rv s).
Proof.
  intros Wa Wb C La Lb Ha Hb Bq Br Uq Ur DQ DF NZ F. unfold div_m. apply wp_bind. eapply wp_peek; eauto. apply wp_bind. eapply wp_peek; eauto.
  unfold div, div_gen in F. destruct (div_abs va vb) as [(q0 & r0)| | |] eqn:FA; try discriminate. cbn [bind] in F. fold (differ va vb) in *.
  destruct (used_quot _ _ _ _ Wa Wb NZ FA) as (UQ & Wq & Wr & LR & Nq).
  apply wp_check. eapply wp_mono; [eapply (div_abs_m_ok e n rq rr a b va vb q0 r0 s); eauto|]. intros rc s1 (A1 & A2 & A3 & A4).
  destruct A4 as [(-> & HQ & HR & RM)|(-> & S & K)]; cbn [Z.eqb].
  2:{ repeat (split; auto). }
  destruct (differ va vb) eqn:Df; cbn [negb] in F.
  2:{ injection F as <- <-. apply wp_ret. repeat (split; auto). }
  destruct (DF eq_refl) as ((r & -> & Nr) & Nqb & RQ). cbn [holds] in HR. specialize (Br r eq_refl).
  apply wp_bind. eapply wp_peek; [exact HR|]. destruct (is_zero r0) eqn:Z0; cbn [negb] in F.
  { injection F as <- <-. apply wp_ret. repeat (split; auto). }
  destruct (sub (set_sign true q0) mone) as [q1| | |] eqn:FS; try discriminate. cbn [bind] in F.
  destruct (sub_abs vb r0) as [r1| | |] eqn:FR; try discriminate. cbn [bind] in F. injection F as <- <-.
  assert (Nbq : Some b <> rq) by (intro E; symmetry in E; exact (Nqb E)). assert (Nbr : Some b <> Some r) by congruence.
  assert (Hb1 : has s1 b vb) by (eapply has_same; [apply A2; auto|auto]).
  (* the quotient *)
  apply wp_bind. eapply (wp_mono _ e s1 (fun rc s2 => (forall x, (x < n)%nat -> Some x <> rq -> mem s2 x = mem s1 x) /\ (tick s1 <= tick s2)%nat /\ calm n s2 /\ holds s2 rq q1)).
  { destruct rq as [q|]; [|apply wp_ret; cbn; auto]. specialize (Bq q eq_refl). cbn [holds] in HQ. specialize (DQ q eq_refl).
    assert (Nqr : q <> r) by congruence.
    apply wp_bind. apply wp_set. set (s2 := put s1 n (mkobj false 1 [1])).
    assert (M2 : forall x, x <> n -> mem s2 x = mem s1 x) by (intros; apply put_other; auto).
    assert (H1 : has s2 n mone) by (eapply has_intro; [apply put_same|cbn; lia|reflexivity]).
    assert (HQ2 : has s2 q q0) by (eapply has_same; [apply M2; lia|auto]). destruct (has_elim _ _ _ HQ2) as (L2 & U2 & S2 & D2 & N2).
    apply wp_bind. eapply set_sg_at; [apply live_ob; exact L2|]. intros s3 (B1 & B2 & B3).
    assert (HQ3 : has s3 q (set_sign true q0)) by (eapply has_intro; [exact B1|rewrite U2; exact N2|unfold set_sign; f_equal; rewrite U2; symmetry; exact D2]).
    assert (H13 : has s3 n mone) by (eapply has_same; [apply B2; lia|auto]).
    assert (LQ : (Nat.max (used q0) 1 + 1 <= len s3 q)%nat).
    { assert (E1 : len s3 q = len s1 q) by (unfold len, dat; rewrite (mem_ob _ _ _ B1); cbn [o_da]; change (len s2 q = len s1 q); apply len_same; apply M2; lia).
      rewrite E1. destruct (cmp_abs va vb <? 0) eqn:CM; cbn [negb] in RM.
      - rewrite (RM q eq_refl). unfold div_abs in FA. rewrite NZ, CM in FA. injection FA as <- <-. cbn. specialize (RQ eq_refl q eq_refl). lia.
      - destruct RM as (RM & _). specialize (RM q eq_refl). assert (1 <= used va)%nat; [|lia].
        pose proof (div_abs_parts va vb Wa Wb NZ CM) as PP. cbv zeta in PP. apply PP. }
    apply wp_finally. eapply wp_mono; [apply wp_and; [eapply (sub_fits e q q n (set_sign true q0) mone s3); [exact HQ3|exact H13|exact (has_live _ _ _ HQ3)|discriminate|exact LQ]|
      eapply (sub_m_ok e q q n (set_sign true q0) mone q1 s3 HQ3 H13 (has_live _ _ _ HQ3) FS)]|].
    intros rc s4 (-> & ((E1 & E2 & E3) & _)). destruct E3 as [(_ & V & _)|(E & _)]; [|discriminate].
    unfold wp, set. cbn [mem tick]. split; [intros x Hx N; rewrite (proj2 (Nat.eqb_neq x n)) by lia; rewrite E1, B2, M2 by (try congruence; lia); auto|].
    split; [unfold s2, put in B3; cbn [tick] in B3; lia|]. split.
    - intros x Hx. cbn [mem]. destruct (Nat.eqb_spec x n) as [->|N]; [auto|]. rewrite E1, B2, M2 by lia. apply A1; auto.
    - cbn [holds]. eapply has_same; [|exact V]. cbn [mem]. rewrite (proj2 (Nat.eqb_neq q n)) by lia. auto. }
  intros rc1 s2 (B1 & B2 & B3 & HQ2).
  assert (Nrq : Some r <> rq) by (intro E; symmetry in E; exact (DQ r E eq_refl)).
  assert (HR2 : has s2 r r0) by (eapply has_same; [apply B1; auto|auto]). assert (Hb2 : has s2 b vb) by (eapply has_same; [apply B1; auto|auto]).
  eapply wp_mono; [apply wp_and; [eapply (sub_abs_m_ok e r b r vb r0 r1 s2 Hb2 HR2 (has_live _ _ _ HR2) FR)|
     eapply (wp_mono _ e s2 (fun rc _ => negb (cmp_abs va vb <? 0) = true -> rc = 0))]|].
  { destruct (cmp_abs va vb <? 0) eqn:CM; cbn [negb] in *.
    - eapply wp_mono; [eapply (sub_abs_m_ok e r b r vb r0 r1 s2 Hb2 HR2 (has_live _ _ _ HR2) FR)|]. intros; discriminate.
    - destruct RM as (_ & RM). specialize (RM r eq_refl). eapply wp_mono; [eapply (sub_abs_fits e r b r vb r0 r1 s2 Hb2 HR2 (has_live _ _ _ HR2) FR)|auto].
      rewrite (len_same s1) by (apply B1; auto). assert (used vb <= used va)%nat; [|lia]. unfold cmp_abs in CM. destruct (Nat.ltb_spec (used va) (used vb)); [discriminate|lia]. }
  { intros rc s3 H. exact H. }
  intros rc s3 (((E1 & E2 & E3) & _) & E4). split; [intros x Hx; rewrite E1 by lia; apply B3; auto|]. split; [intros x Hx N1 N2; rewrite E1, B1, A2 by congruence; auto|]. split; [lia|].
  assert (HQ3 : holds s3 rq q1) by (destruct rq as [q|]; cbn [holds] in *; auto; eapply has_same; [apply E1; congruence|auto]).
  destruct E3 as [(-> & V & _)|(-> & S & M)]; [left; auto|right]. split; auto. split; [eapply starved_mono; [| |exact S]; lia|].
  destruct (negb (cmp_abs va vb <? 0)); [specialize (E4 eq_refl); discriminate|]. intros x [E|E].
  - subst rq. exists q1. exact HQ3.
  - injection E as ->. exists r0. eapply has_same; [exact M|auto].
Qed.
