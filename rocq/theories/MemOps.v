(** Memory-level model: addition, subtraction, copies and shifts refine the
    value-level model, whatever the destination and the allocations do. *)
From Verif Require Import Base Lists MpiModel MemModel MemSpec Mem.

(** Outcome of a routine without local objects: only [r] may change. *)
Definition leaf (e : env) (r : nat) (strong : bool) (v : mpi) (s : st) (rc : Z) (s' : st) : Prop :=
  (forall x, x <> r -> mem s' x = mem s x) /\ (tick s <= tick s')%nat /\
  (rc = 0 /\ has s' r v /\ (len s r <= len s' r)%nat \/
   rc = -1 /\ starved e s s' /\ (if strong then mem s' r = mem s r else exists w, has s' r w)).

Lemma has_elim s x v : has s x v -> live s x /\ o_us (ob s x) = used v /\ o_sg (ob s x) = neg v /\ firstn (used v) (dat s x) = dg v /\ (used v <= len s x)%nat.
Proof.
  intros (o & M & L & <-). unfold live, dat, len, dat. rewrite (mem_ob _ _ _ M). unfold view, used. cbn [dg neg].
  rewrite firstn_length_le by auto. rewrite M. repeat split; auto; congruence.
Qed.
Lemma has_intro s x g u d v : mem s x = Some (mkobj g u d) -> (u <= length d)%nat -> v = mkmpi g (firstn u d) -> has s x v.
Proof. intros M L ->. exists (mkobj g u d). auto. Qed.
Lemma has_live s x v : has s x v -> live s x.
Proof. intro H. apply has_elim in H. tauto. Qed.
Lemma has_same s s' x v : mem s' x = mem s x -> has s x v -> has s' x v.
Proof. intros E (o & M & K). exists o. rewrite E. auto. Qed.
Lemma has_fun s x v w : has s x v -> has s x w -> v = w.
Proof. intros (o & M & _ & <-) (o' & M' & _ & <-). congruence. Qed.
Lemma ob_view s x v : has s x v -> view (ob s x) = v /\ (o_us (ob s x) <=? length (o_da (ob s x)))%nat = true.
Proof. intros (o & M & L & <-). rewrite (mem_ob _ _ _ M). split; auto. apply Nat.leb_le. auto. Qed.
Lemma wp_peek x v e s (Q : mpi -> st -> Prop) : has s x v -> Q v s -> wp (peek x) e s Q.
Proof.
  intros H K. apply wp_bind. apply wp_get; [eapply has_live; eauto|]. destruct (ob_view _ _ _ H) as [<- E]. rewrite E. exact K.
Qed.
Lemma starved_mono e s s1 s2 s3 : (tick s <= tick s1)%nat -> (tick s2 <= tick s3)%nat -> starved e s1 s2 -> starved e s s3.
Proof. intros A C (k & K & G). exists k. split; [lia|auto]. Qed.

(** * Growing *)
Definition next (s : st) : st := mkst (mem s) (S (tick s)).
Lemma wp_alloc k e s (Q : option (list Z) -> st -> Prop) :
  (grant e (tick s) = true -> Q (Some (map (junk e (tick s)) (seq 0 k))) (next s)) ->
  (grant e (tick s) = false -> Q None (next s)) -> wp (alloc k) e s Q.
Proof. intros H K. unfold wp, alloc. destruct (grant e (tick s)); [apply H|apply K]; reflexivity. Qed.
Lemma next_starved e s : grant e (tick s) = false -> starved e s (next s).
Proof. intro G. exists (tick s). cbn. split; auto; lia. Qed.
Definition grown (e : env) (x k : nat) (s : st) (rc : Z) (s' : st) : Prop :=
  (forall y, y <> x -> mem s' y = mem s y) /\ (tick s <= tick s')%nat /\
  (rc = 0 /\ (exists t, mem s' x = Some (mkobj (o_sg (ob s x)) (o_us (ob s x)) (dat s x ++ t))) /\ (k <= len s' x)%nat \/
   rc = -1 /\ starved e s s' /\ mem s' x = mem s x).
Lemma grow_ok e x k s : live s x -> wp (grow x k) e s (grown e x k s).
Proof.
  intro L. apply wp_bind. apply wp_get; auto. fold (dat s x). destruct (Nat.leb_spec k (length (dat s x))) as [H|H].
  - apply wp_ret. split; auto. split; auto. left. split; auto. split; [|exact H]. exists []. rewrite app_nil_r. rewrite (live_ob _ _ L). unfold dat. destruct (ob s x); reflexivity.
  - apply wp_bind. apply wp_alloc; intro G.
    + apply wp_bind. apply wp_set. apply wp_ret. split; [intros y Hy; rewrite put_other by auto; auto|]. split; [cbn; lia|]. left. split; auto.
      rewrite put_same. split; [eexists; reflexivity|]. unfold len, dat. rewrite ob_put. cbn [o_da].
      rewrite app_length, skipn_length, map_length, seq_length. fold (dat s x).
      pose proof (Nat.mod_upper_bound k 8 ltac:(lia)). lia.
    + apply wp_ret. split; auto. split; [cbn; lia|]. right. split; auto. split; auto. apply next_starved. auto.
Qed.
Lemma ensure_ok e x k s : live s x -> wp (ensure x k) e s (grown e x k s).
Proof.
  intro L. apply wp_bind. apply wp_get; auto. fold (dat s x). destruct (Nat.ltb_spec (length (dat s x)) k) as [H|H]; [apply grow_ok; auto|].
  apply wp_ret. split; auto. split; auto. left. split; auto. split; [|exact H]. exists []. rewrite app_nil_r, (live_ob _ _ L). unfold dat. destruct (ob s x); reflexivity.
Qed.
Lemma grown_has e x k s s' y v : grown e x k s 0 s' -> has s y v -> has s' y v.
Proof.
  intros (H1 & H2 & H3) H. destruct (Nat.eq_dec y x) as [->|N]; [|eapply has_same; [apply H1; auto|auto]].
  destruct H3 as [(_ & (t & M) & _)|(F & _)]; [|discriminate]. destruct H as (o & M0 & L0 & <-). rewrite (mem_ob _ _ _ M0) in M.
  unfold dat in M. rewrite (mem_ob _ _ _ M0) in M.
  eapply has_intro; [exact M|rewrite app_length; lia|]. unfold view. rewrite firstn_app. replace (o_us o - length (o_da o))%nat with 0%nat by lia.
  cbn. rewrite app_nil_r. reflexivity.
Qed.
Lemma grown_len e x k s s' y : grown e x k s 0 s' -> (len s y <= len s' y)%nat.
Proof.
  intros (H1 & H2 & H3). destruct (Nat.eq_dec y x) as [->|N]; [|unfold len, dat, ob; rewrite H1; auto].
  destruct H3 as [(_ & (t & M) & _)|(F & _)]; [|discriminate]. unfold len at 2, dat. rewrite (mem_ob _ _ _ M). cbn. rewrite app_length. unfold len. lia.
Qed.
Lemma grown_live e x k s s' y : grown e x k s 0 s' -> live s y -> live s' y.
Proof.
  intros (H1 & H2 & H3) L. destruct (Nat.eq_dec y x) as [->|N]; [|unfold live; rewrite H1; auto].
  destruct H3 as [(_ & (t & M) & _)|(F & _)]; [|discriminate]. eapply mem_live; eauto.
Qed.
(** a first growing step that fails ends the routine *)
Lemma wp_grown e x k s m f Q : wp m e s (grown e x k s) ->
  (forall s', grown e x k s 0 s' -> (k <= len s' x)%nat -> wp f e s' Q) ->
  (forall s', (forall y, mem s' y = mem s y) -> (tick s <= tick s')%nat -> starved e s s' -> Q (-1) s') ->
  wp (check m f) e s Q.
Proof.
  intros H H0 H1. apply wp_check. eapply wp_mono; [exact H|]. intros rc s' G. destruct G as (A & C & [(-> & T & L)|(-> & D & E)]).
  - apply H0; auto. split; auto.
  - apply H1; auto. intro y. destruct (Nat.eq_dec y x) as [->|N]; auto.
Qed.
Lemma leaf_fail e r b v s s' : (b = true \/ exists w, has s r w) -> (forall y, mem s' y = mem s y) -> (tick s <= tick s')%nat -> starved e s s' -> leaf e r b v s (-1) s'.
Proof.
  intros W H T S. split; auto. split; auto. right. split; auto. split; auto. destruct b; auto. destruct W as [W|(w & W)]; [discriminate|]. exists w. eapply has_same; eauto.
Qed.
Lemma leaf_ok e r b v s s1 s2 : (forall x, x <> r -> mem s1 x = mem s x) -> (tick s <= tick s1)%nat -> (len s r <= len s1 r)%nat ->
  (exists o, becomes s1 r o s2 /\ (o_us o <= length (o_da o))%nat /\ view o = v /\ (len s1 r <= length (o_da o))%nat) -> leaf e r b v s 0 s2.
Proof.
  intros H T L (o & (M & O & K) & U & V & LL). split; [intros x Hx; rewrite O, H; auto|]. split; [lia|]. left. split; auto. split; [exists o; auto|].
  unfold len at 2, dat. rewrite (mem_ob _ _ _ M). lia.
Qed.

(** set_us then set_sg *)
Lemma wp_shape {A} r k b (f : cmd A) e s Q : live s r -> (forall s', becomes s r (mkobj b k (dat s r)) s' -> wp f e s' Q) ->
  wp (call set_us r k; call set_sg r b; f) e s Q.
Proof.
  intros L H. apply wp_bind. apply wp_set_us; auto. apply wp_bind. apply wp_set_sg; [apply live_put; auto|]. apply H.
  eapply becomes_trans; [apply becomes_put|]. unfold dat. rewrite ob_put. cbn [o_us o_da]. apply becomes_put.
Qed.
Lemma becomes_dat s r g k s' y : becomes s r (mkobj g k (dat s r)) s' -> dat s' y = dat s y.
Proof.
  intros (H & K & _). destruct (Nat.eq_dec y r) as [->|N]; unfold dat at 1, ob; [rewrite H; reflexivity|rewrite K; auto].
Qed.

Lemma move_copy_ok e d s0 v s : d <> s0 -> has s s0 v -> live s d -> (used v <= len s d)%nat ->
  wp (move d s0 (used v) 0) e s (fun _ s' => chg s d (dg v ++ skipn (used v) (dat s d)) s').
Proof.
  intros N H L Hl. destruct (has_elim _ _ _ H) as (La & _ & _ & E & Ha). eapply wp_mono; [apply move_ok; auto|].
  intros t s' K. eapply chg_ext; [exact K|]. unfold over, seg. cbn [firstn skipn app Nat.add]. rewrite E. reflexivity.
Qed.
Lemma dg_firstn v l : firstn (used v) (dg v ++ l) = dg v.
Proof. apply firstn_exact. reflexivity. Qed.
Lemma copy_ok e d s0 v s : has s s0 v -> live s d -> wp (copy d s0) e s (leaf e d true v s).
Proof.
  intros H L. unfold copy. destruct (Nat.eqb_spec d s0) as [->|N].
  - apply wp_ret. split; auto.
  - destruct (has_elim _ _ _ H) as (La & U & G & E & Ha). apply wp_bind. apply wp_get; auto. rewrite U, G.
    eapply wp_grown; [apply ensure_ok; auto| |].
    + intros s1 G1 Hl. pose proof (grown_has _ _ _ _ _ _ _ G1 H) as H1. pose proof (grown_live _ _ _ _ _ d G1 L) as L1.
      apply wp_bind. eapply wp_mono; [apply move_copy_ok; eauto|]. intros t s2 K. cbv beta in K. apply wp_bind. apply wp_set_us; [eapply chg_live; eauto|].
      apply wp_bind. apply wp_set_sg; [apply live_put; eapply chg_live; eauto|]. apply wp_ret. eapply leaf_ok.
      * apply (proj1 G1).
      * apply (proj1 (proj2 G1)).
      * eapply grown_len; eauto.
      * eexists. split; [eapply becomes_trans; [exact K|]; eapply becomes_trans; apply becomes_put|].
        unfold dat. rewrite ob_put. cbn [o_us o_da]. rewrite (becomes_ob _ _ _ _ K). cbn [o_da].
        rewrite app_length, skipn_length. unfold len in *. split; [unfold used; lia|]. split; [|unfold used; lia].
        unfold view. cbn [o_us o_da o_sg]. rewrite dg_firstn. destruct v; reflexivity.
    + intros s1 A1 A2 A3. apply leaf_fail; auto.
Qed.
Lemma leaf_has e r b v s rc s' x w : leaf e r b v s rc s' -> x <> r -> has s x w -> has s' x w.
Proof. intros (H & _) N K. eapply has_same; [apply H; auto|auto]. Qed.
Lemma leaf_weak e r v s rc s' : (exists w, has s r w) -> leaf e r true v s rc s' -> leaf e r false v s rc s'.
Proof.
  intros (w & W) (A & C & [D|(D1 & D2 & D3)]); (split; [|split]; auto). right. split; auto. split; auto. exists w. eapply has_same; eauto.
Qed.

(** * Addition *)
Lemma add_abs_ord_ok e r a b va vb s : has s a va -> has s b vb -> live s r -> (used vb <= used va)%nat ->
  wp (add_abs_ord r a b) e s (leaf e r true (mkmpi false (add_loop (dg va) (dg vb) 0)) s).
Proof.
  intros Ha Hb Lr Hu. unfold add_abs_ord. destruct (has_elim _ _ _ Ha) as (La & Ua & _). destruct (has_elim _ _ _ Hb) as (Lb & Ub & _).
  apply wp_bind. apply wp_get; auto. apply wp_bind. apply wp_get; auto. rewrite Ua, Ub. cbv zeta.
  eapply wp_grown; [apply ensure_ok; auto| |intros s1 A1 A2 A3; apply leaf_fail; auto].
  intros s1 G1 Hl. pose proof (grown_has _ _ _ _ _ _ _ G1 Ha) as Ha1. pose proof (grown_has _ _ _ _ _ _ _ G1 Hb) as Hb1. pose proof (grown_live _ _ _ _ _ r G1 Lr) as Lr1.
  destruct (has_elim _ _ _ Ha1) as (La1 & _ & _ & Ea & Na). destruct (has_elim _ _ _ Hb1) as (Lb1 & _ & _ & Eb & Nb).
  apply wp_shape; auto. intros s2 B2. apply wp_bind.
  assert (LL : forall y, len s2 y = len s1 y) by (intro y; unfold len; rewrite (becomes_dat _ _ _ _ _ y B2); reflexivity).
  eapply wp_mono; [apply add_loop_ok; try (eapply becomes_live_o; [exact B2|auto]); rewrite ?LL; lia|].
  replace (used vb + (used va - used vb))%nat with (used va) by lia.
  intros cy s3 (R & LR & K & D). unfold seg in D. cbn [skipn] in D. rewrite !(becomes_dat _ _ _ _ _ _ B2), Ea, Eb in D.
  pose proof (becomes_trans _ _ _ _ _ _ B2 K) as B3. rewrite (becomes_ob _ _ _ _ B2) in B3. cbn [o_sg o_us] in B3. unfold over in B3. cbn [firstn app Nat.add] in B3.
  rewrite (becomes_dat _ _ _ _ _ _ B2) in B3. unfold len in Hl.
  destruct D as [[-> D]|[-> D]]; cbn [Z.eqb].
  - apply wp_ret. eapply leaf_ok; [apply (proj1 G1)|apply (proj1 (proj2 G1))|eapply grown_len; eauto|].
    eexists. split; [exact B3|]. cbn [o_us o_da]. rewrite app_length, skipn_length. split; [lia|]. split; [|unfold len; lia].
    unfold view. cbn [o_sg o_us o_da]. rewrite firstn_exact by auto. rewrite D. reflexivity.
  - assert (L3 : live s3 r) by (eapply becomes_live; exact B3).
    apply wp_bind. apply wp_wr; [auto|unfold len, dat; rewrite (becomes_ob _ _ _ _ B3); cbn [o_da]; rewrite app_length, skipn_length; lia|].
    apply wp_bind. apply wp_set_us; [apply live_wput; auto|]. apply wp_ret.
    eapply leaf_ok; [apply (proj1 G1)|apply (proj1 (proj2 G1))|eapply grown_len; eauto|].
    pose proof (wput_chg s3 r (used va) 1) as B4. unfold chg in B4. unfold dat in B4. rewrite (becomes_ob _ _ _ _ B3) in B4. cbn [o_da o_us o_sg] in B4.
    eexists. split; [eapply becomes_trans; [eapply becomes_trans; [exact B3|exact B4]|]; apply becomes_put|].
    unfold dat. rewrite (becomes_ob _ _ _ _ B4). cbn [o_da o_us o_sg]. rewrite upd_length, app_length, skipn_length. split; [lia|]. split; [|unfold len; lia].
    unfold view. cbn [o_sg o_us o_da]. rewrite upd_split by (rewrite app_length, skipn_length; lia). rewrite (firstn_exact R) by auto.
    match goal with |- context [R ++ 1 :: ?t] => replace (R ++ 1 :: t) with ((R ++ [1]) ++ t) by (rewrite <- app_assoc; reflexivity) end.
    replace (used va + 1)%nat with (length (R ++ [1])) by (rewrite app_length; cbn; lia).
    rewrite (firstn_exact (R ++ [1])) by auto. rewrite D. reflexivity.
Qed.
Lemma add_abs_m_ok e r a b va vb s : has s a va -> has s b vb -> live s r ->
  wp (add_abs_m r a b) e s (leaf e r true (add_abs va vb) s).
Proof.
  intros Ha Hb Lr. destruct (has_elim _ _ _ Ha) as (La & Ua & _). destruct (has_elim _ _ _ Hb) as (Lb & Ub & _).
  apply wp_bind. apply wp_get; auto. apply wp_bind. apply wp_get; auto. rewrite Ua, Ub. unfold add_abs. destruct (Nat.ltb_spec (used va) (used vb)); apply add_abs_ord_ok; auto; lia.
Qed.

(** * Subtraction; the digits dropped from the result are zero *)
Definition clean (s : st) (r k : nat) : Prop :=
  forall j, (o_us (ob s r) <= j < k)%nat -> nth j (dat s r) 0 = 0.
Lemma madjust_ok e x s (Q : unit -> st -> Prop) : live s x -> (o_us (ob s x) <= len s x)%nat ->
  (forall s', becomes s x (mkobj (o_sg (ob s x)) (adj (dat s x) (o_us (ob s x))) (dat s x)) s' -> Q tt s') -> wp (madjust x) e s Q.
Proof.
  intros L H K. apply wp_bind. apply wp_get; auto. unfold len, dat in H. rewrite (proj2 (Nat.leb_le _ _) H). apply wp_set. apply K. apply becomes_put.
Qed.
Lemma sub_abs_m_ok e r a b va vb v s : has s a va -> has s b vb -> live s r -> sub_abs va vb = Ok v ->
  wp (sub_abs_m r a b) e s (fun rc s' => leaf e r true v s rc s' /\ (rc = 0 -> clean s' r (used va))).
Proof.
  intros Ha Hb Lr F. unfold sub_abs in F. unfold sub_abs_m. apply wp_bind. eapply wp_peek; eauto. apply wp_bind. eapply wp_peek; eauto.
  destruct (cmp_abs va vb <? 0) eqn:C; [discriminate|]. destruct (sub_loop (dg va) (dg vb) 0) as [R0|] eqn:F0; [|discriminate]. injection F as <-.
  assert (Hu : (used vb <= used va)%nat). { unfold cmp_abs in C. destruct (Nat.ltb_spec (used va) (used vb)); [discriminate|lia]. }
  cbv zeta. eapply wp_grown; [apply ensure_ok; auto| |intros s1 A1 A2 A3; split; [apply leaf_fail; auto|discriminate]].
  intros s1 G1 Hl. pose proof (grown_has _ _ _ _ _ _ _ G1 Ha) as Ha1. pose proof (grown_has _ _ _ _ _ _ _ G1 Hb) as Hb1. pose proof (grown_live _ _ _ _ _ r G1 Lr) as Lr1.
  destruct (has_elim _ _ _ Ha1) as (La1 & _ & _ & Ea & Na). destruct (has_elim _ _ _ Hb1) as (Lb1 & _ & _ & Eb & Nb).
  apply wp_shape; auto. intros s2 B2. apply wp_bind.
  assert (LL : forall y, len s2 y = len s1 y) by (intro y; unfold len; rewrite (becomes_dat _ _ _ _ _ y B2); reflexivity).
  eapply wp_mono; [apply sub_loop_ok; try (eapply becomes_live_o; [exact B2|auto]); rewrite ?LL; lia|].
  replace (used vb + (used va - used vb))%nat with (used va) by lia.
  intros cy s3 (R & LR & K & D). unfold seg in D. cbn [skipn] in D. rewrite !(becomes_dat _ _ _ _ _ _ B2), Ea, Eb in D.
  pose proof (becomes_trans _ _ _ _ _ _ B2 K) as B3. rewrite (becomes_ob _ _ _ _ B2) in B3. cbn [o_sg o_us] in B3. unfold over in B3. cbn [firstn app Nat.add] in B3.
  rewrite (becomes_dat _ _ _ _ _ _ B2) in B3. unfold len in Hl.
  destruct D as [[-> D]|[-> D]]; [|congruence]. cbn [Z.eqb]. assert (R = R0) by congruence. subst R0.
  assert (L3 : live s3 r) by (eapply becomes_live; exact B3). pose proof (becomes_ob _ _ _ _ B3) as O3.
  apply wp_bind. apply madjust_ok; [auto|unfold len, dat; rewrite O3; cbn [o_da o_us]; rewrite app_length, skipn_length; lia|].
  intros s4 B4. unfold dat in B4. rewrite O3 in B4. cbn [o_da o_us o_sg] in B4. apply wp_ret.
  assert (Hd : (used va <= length (R ++ skipn (used va) (dat s1 r)))%nat) by (rewrite app_length; lia).
  destruct (adj_adjust _ _ Hd) as [E1 E2]. rewrite (firstn_exact R _ (used va) LR) in E1. split.
  - eapply leaf_ok; [apply (proj1 G1)|apply (proj1 (proj2 G1))|eapply grown_len; eauto|].
    eexists. split; [eapply becomes_trans; eauto|]. cbn [o_us o_da]. split; [unfold dat in *; lia|]. split; [|rewrite app_length, skipn_length; unfold len; lia].
    unfold view. cbn [o_sg o_us o_da]. unfold dat in *. rewrite E1. reflexivity.
  - intros _. unfold clean, dat. rewrite (becomes_ob _ _ _ _ B4). cbn [o_us o_da]. intros j Hj. eapply adj_zero. exact Hj.
Qed.

(** * Signed addition and subtraction *)
Lemma with_sign_ok e r g m v s (P : st -> Prop) : wp m e s (fun rc s' => leaf e r true v s rc s' /\ (rc = 0 -> P s')) -> live s r ->
  wp (with_sign r g m) e s (fun rc s' => leaf e r true (set_sign g v) s rc s' /\
    (rc = 0 -> exists s0, P s0 /\ dat s' r = dat s0 r /\ o_us (ob s' r) = o_us (ob s0 r))).
Proof.
  intros H Lr. apply wp_check. eapply wp_mono; [exact H|]. intros rc s1 ((A & T & [(-> & V & L)|(-> & S & M)]) & HP); cbn [Z.eqb].
  - apply wp_bind. apply wp_set_sg; [eapply has_live; eauto|]. apply wp_ret. split.
    + eapply leaf_ok; eauto. eexists. split; [apply becomes_put|]. destruct (has_elim _ _ _ V) as (V1 & V2 & V3 & V4 & V5). cbn [o_us o_da]. rewrite V2. split; [exact V5|].
      split; [|unfold len; lia]. unfold view, set_sign. cbn [o_sg o_us o_da]. rewrite V4. reflexivity.
    + intros _. exists s1. split; auto. unfold dat at 1. rewrite ob_put. auto.
  - split; [|discriminate]. split; auto.
Qed.
Lemma leaf_mono e r v s m : wp m e s (leaf e r true v s) -> wp m e s (fun rc s' => leaf e r true v s rc s' /\ (rc = 0 -> True)).
Proof. intro H. eapply wp_mono; [exact H|]. auto. Qed.
Definition washed (s : st) (r k : nat) : Prop := o_us (ob s r) = 0%nat \/ clean s r k.
Lemma zero_ok e r s (Q : unit -> st -> Prop) : live s r -> (forall s', becomes s r (mkobj false 0 (dat s r)) s' -> Q tt s') -> wp (zero r) e s Q.
Proof. intros L H. apply wp_bind. apply wp_get; auto. apply wp_set. apply H. apply becomes_put. Qed.
Lemma zero_leaf e r s : live s r -> wp (call zero r; ret 0) e s (leaf e r true mzero s).
Proof.
  intro L. apply wp_bind. apply zero_ok; auto. intros s' K. apply wp_ret. eapply leaf_ok with (s1 := s); auto. eexists. split; [exact K|]. cbn. split; [lia|]. auto.
Qed.
Lemma add_m_ok e r a b va vb v s : has s a va -> has s b vb -> live s r -> add va vb = Ok v ->
  wp (add_m r a b) e s (fun rc s' => leaf e r true v s rc s' /\ (rc = 0 -> neg va <> neg vb -> washed s' r (Nat.max (used va) (used vb)))).
Proof.
  intros Ha Hb Lr F. unfold add in F. unfold add_m. apply wp_bind. eapply wp_peek; eauto. apply wp_bind. eapply wp_peek; eauto.
  destruct (Bool.eqb (neg va) (neg vb)) eqn:E.
  - injection F as <-. apply Bool.eqb_prop in E. eapply wp_mono; [eapply with_sign_ok; [apply leaf_mono; apply add_abs_m_ok; eauto|auto]|].
    intros rc s' [H _]. split; auto. intros _ X. congruence.
  - destruct (cmp_abs va vb) as [|[p|p|]|[p|p|]] eqn:C; try (injection F as <-; eapply wp_mono; [eapply with_sign_ok; [apply leaf_mono; apply zero_leaf; auto|auto]|];
      intros rc s' [(A & T & D) W]; split; [split; auto|]; intros -> _; left; destruct D as [(_ & V & _)|(D & _)]; [|discriminate]; destruct (has_elim _ _ _ V) as (_ & U & _); exact U).
    + destruct (sub_abs va vb) as [w| | |] eqn:Fs; try discriminate. cbn in F. injection F as <-.
      eapply wp_mono; [eapply with_sign_ok; [eapply sub_abs_m_ok; eauto|auto]|]. intros rc s' [H W]. split; auto. intros R0 _. right.
      destruct (W R0) as (s0 & W1 & W2 & W3). unfold clean. rewrite W2, W3. intros j Hj. apply W1.
      unfold cmp_abs in C. destruct (Nat.ltb_spec (used va) (used vb)); [discriminate|]. lia.
    + destruct (sub_abs vb va) as [w| | |] eqn:Fs; try discriminate. cbn in F. injection F as <-.
      eapply wp_mono; [eapply with_sign_ok; [eapply sub_abs_m_ok; eauto|auto]|]. intros rc s' [H W]. split; auto. intros R0 _. right.
      destruct (W R0) as (s0 & W1 & W2 & W3). unfold clean. rewrite W2, W3. intros j Hj. apply W1.
      unfold cmp_abs in C. destruct (Nat.ltb_spec (used va) (used vb)); [lia|]. destruct (Nat.ltb_spec (used vb) (used va)); [discriminate|]. lia.
Qed.
Lemma sub_m_ok e r a b va vb v s : has s a va -> has s b vb -> live s r -> sub va vb = Ok v ->
  wp (sub_m r a b) e s (fun rc s' => leaf e r true v s rc s' /\ (rc = 0 -> neg va = neg vb -> washed s' r (Nat.max (used va) (used vb)))).
Proof.
  intros Ha Hb Lr F. unfold sub in F. unfold sub_m. apply wp_bind. eapply wp_peek; eauto. apply wp_bind. eapply wp_peek; eauto.
  destruct (Bool.eqb (neg va) (neg vb)) eqn:E; cbn [negb] in *.
  - destruct (cmp_abs va vb) as [|[p|p|]|[p|p|]] eqn:C; try (injection F as <-; eapply wp_mono; [eapply with_sign_ok; [apply leaf_mono; apply zero_leaf; auto|auto]|];
      intros rc s' [(A & T & D) W]; split; [split; auto|]; intros -> _; left; destruct D as [(_ & V & _)|(D & _)]; [|discriminate]; destruct (has_elim _ _ _ V) as (_ & U & _); exact U).
    + destruct (sub_abs va vb) as [w| | |] eqn:Fs; try discriminate. cbn in F. injection F as <-.
      eapply wp_mono; [eapply with_sign_ok; [eapply sub_abs_m_ok; eauto|auto]|]. intros rc s' [H W]. split; auto. intros R0 _. right.
      destruct (W R0) as (s0 & W1 & W2 & W3). unfold clean. rewrite W2, W3. intros j Hj. apply W1.
      unfold cmp_abs in C. destruct (Nat.ltb_spec (used va) (used vb)); [discriminate|]. lia.
    + destruct (sub_abs vb va) as [w| | |] eqn:Fs; try discriminate. cbn in F. injection F as <-.
      eapply wp_mono; [eapply with_sign_ok; [eapply sub_abs_m_ok; eauto|auto]|]. intros rc s' [H W]. split; auto. intros R0 _. right.
      destruct (W R0) as (s0 & W1 & W2 & W3). unfold clean. rewrite W2, W3. intros j Hj. apply W1.
      unfold cmp_abs in C. destruct (Nat.ltb_spec (used va) (used vb)); [lia|]. destruct (Nat.ltb_spec (used vb) (used va)); [discriminate|]. lia.
  - injection F as <-. eapply wp_mono; [eapply with_sign_ok; [apply leaf_mono; apply add_abs_m_ok; eauto|auto]|].
    intros rc s' [H _]. split; auto. intros _ X. rewrite X, Bool.eqb_reflx in E. discriminate.
Qed.
