(** Memory-level model: shifts, signs, initialisation. *)
From Verif Require Import Base Lists MpiModel MemModel MemSpec Mem MemOps.

Lemma becomes_leaf e r b v s o s' : becomes s r o s' -> (o_us o <= length (o_da o))%nat -> view o = v -> (len s r <= length (o_da o))%nat -> leaf e r b v s 0 s'.
Proof. intros H U V L. eapply leaf_ok with (s1 := s); auto. exists o. auto. Qed.
Lemma view_ob s x v : has s x v -> ob s x = mkobj (neg v) (used v) (dat s x).
Proof. intro H. destruct (has_elim _ _ _ H) as (_ & A & C & _). unfold dat in *. destruct (ob s x); cbn in *. congruence. Qed.

Lemma abs_ok e d s0 v s : has s s0 v -> live s d -> wp (abs d s0) e s (leaf e d true (mpi_abs v) s).
Proof.
  intros H L. unfold abs. apply wp_check.
  assert (K : wp (if (d =? s0)%nat then ret 0 else copy d s0) e s (leaf e d true v s)).
  { destruct (Nat.eqb_spec d s0) as [->|N]; [apply wp_ret; split; auto|apply copy_ok; auto]. }
  eapply wp_mono; [exact K|]. intros rc s1 (A & T & [(-> & V & Q)|(-> & S & M)]); cbn [Z.eqb]; [|split; auto].
  destruct (has_elim _ _ _ V) as (V1 & V2 & V3 & V4 & V5).
  apply wp_bind. apply wp_set_sg; auto. apply wp_ret. eapply leaf_ok; eauto. eexists. split; [apply becomes_put|]. cbn [o_us o_da].
  rewrite V2. split; [exact V5|]. split; [|unfold len; lia]. unfold view, mpi_abs. cbn [o_sg o_us o_da]. rewrite V4. reflexivity.
Qed.

(** * Digit shifts *)
Lemma ensure_enough e x k s (Q : Z -> st -> Prop) : live s x -> (k <= len s x)%nat -> Q 0 s -> wp (ensure x k) e s Q.
Proof.
  intros L H K. apply wp_bind. apply wp_get; auto. unfold len, dat in H. destruct (Nat.ltb_spec (length (o_da (ob s x))) k); [lia|]. apply wp_ret. auto.
Qed.
Lemma shld_tail_ok e a n v s : has s a v -> (0 < n)%nat -> (0 < used v)%nat -> (used v + n <= len s a)%nat ->
  wp (call set_us a (used v + n); call up a n (used v); call fill a n 0; ret 0) e s
    (fun rc s' => rc = 0 /\ becomes s a (mkobj (neg v) (used v + n) (repeat 0 n ++ dg v ++ skipn (used v + n) (dat s a))) s').
Proof.
  intros H Hn Hu Hl. destruct (has_elim _ _ _ H) as (La & U & G & E & N). apply wp_bind. apply wp_set_us; auto. rewrite G.
  set (s1 := put s a _). assert (B1 : becomes s a (mkobj (neg v) (used v + n) (dat s a)) s1) by apply becomes_put.
  assert (L1 : live s1 a) by (eapply becomes_live; eauto). assert (D1 : dat s1 a = dat s a) by (eapply becomes_dat; eauto).
  apply wp_bind. eapply wp_mono; [apply up_ok; [auto|unfold len in *; rewrite D1; lia]|]. intros t s2 K. cbv beta in K.
  unfold chg in K. rewrite (becomes_ob _ _ _ _ B1), D1 in K. cbn [o_sg o_us] in K. rewrite E in K. pose proof (becomes_trans _ _ _ _ _ _ B1 K) as B2.
  assert (D2 : dat s2 a = firstn n (dat s a) ++ dg v ++ skipn (used v + n) (dat s a)) by (unfold dat at 1; rewrite (becomes_ob _ _ _ _ B2); reflexivity).
  apply wp_bind. eapply wp_mono; [apply fill_ok; [eapply becomes_live; eauto|unfold len in *; rewrite D2, app_length, firstn_length_le; lia]|].
  intros t' s3 K3. cbv beta in K3. apply wp_ret. split; auto. unfold chg, over in K3. rewrite (becomes_ob _ _ _ _ B2), D2 in K3. cbn [o_sg o_us firstn app Nat.add] in K3.
  unfold len in *. rewrite skipn_exact in K3 by (rewrite firstn_length_le; lia). eapply becomes_trans; eauto.
Qed.
Lemma is_zero_used v : is_zero v = Nat.eqb (used v) 0.
Proof. unfold is_zero, used. destruct (dg v); reflexivity. Qed.
Lemma shld_view v n t : (0 < n)%nat -> (0 < used v)%nat -> view (mkobj (neg v) (used v + n) (repeat 0 n ++ dg v ++ t)) = shld v n.
Proof.
  intros Hn Hu. unfold view, shld. cbn [o_sg o_us o_da]. rewrite is_zero_used. destruct (Nat.eqb_spec n 0); [lia|]. destruct (Nat.eqb_spec (used v) 0); [lia|]. cbn [orb].
  rewrite app_assoc, firstn_exact; auto. rewrite app_length, repeat_length. unfold used. lia.
Qed.
Lemma shld_m_ok e a n v s : has s a v ->
  wp (shld_m a n) e s (fun rc s' => leaf e a true (shld v n) s rc s' /\ ((used v + n <= len s a)%nat -> rc = 0 /\ tick s' = tick s)).
Proof.
  intro H. destruct (has_elim _ _ _ H) as (La & U & G & E & N). apply wp_bind. apply wp_get; auto. rewrite U.
  destruct (Nat.eqb n 0 || Nat.eqb (used v) 0)%bool eqn:Z0.
  - apply wp_ret. split; auto. split; auto. split; auto. left. split; auto. split; auto. unfold shld. rewrite is_zero_used, Z0. auto.
  - apply Bool.orb_false_iff in Z0 as [Z1 Z2]. apply Nat.eqb_neq in Z1, Z2.
    assert (T : forall s1, (forall x, x <> a -> mem s1 x = mem s x) -> (tick s <= tick s1)%nat -> (len s a <= len s1 a)%nat -> has s1 a v -> (used v + n <= len s1 a)%nat ->
      wp (call set_us a (used v + n); call up a n (used v); call fill a n 0; ret 0) e s1 (fun rc s' => leaf e a true (shld v n) s rc s' /\ rc = 0 /\ tick s' = tick s1)).
    { intros s1 A1 A2 A3 A4 A5. eapply wp_mono; [apply shld_tail_ok; eauto; lia|]. intros rc s' (-> & K). split; [|split; auto; apply K].
      eapply leaf_ok; eauto. eexists. split; [exact K|]. cbn [o_us o_da]. rewrite !app_length, repeat_length, skipn_length. unfold len, used in *. split; [lia|].
      split; [apply shld_view; unfold used in *; lia|lia]. }
    destruct (Nat.le_gt_cases (used v + n) (len s a)) as [Hl|Hl].
    + apply wp_check. apply ensure_enough; auto. cbn [Z.eqb]. eapply wp_mono; [apply T; auto|]. intros rc s' (A & C); split; auto.
    + eapply wp_grown; [apply ensure_ok; auto| |intros s1 A1 A2 A3; split; [apply leaf_fail; auto|lia]].
      intros s1 G1 Hl1. eapply wp_mono; [apply T; [apply (proj1 G1)|apply (proj1 (proj2 G1))|eapply grown_len; eauto|eapply grown_has; eauto|auto]|].
      intros rc s' (A & C). split; auto. lia.
Qed.

(** * Bit shift up *)
Lemma nodata s x v : has s x v -> mem s x = Some (mkobj (neg v) (used v) (dat s x)).
Proof. intro H. rewrite (live_ob _ _ (has_live _ _ _ H)). rewrite (view_ob _ _ _ H) at 1. reflexivity. Qed.
Lemma adjust_ok e c v s : has s c v -> wp (call madjust c; ret 0) e s (fun rc s' => rc = 0 /\ becomes s c (mkobj (neg v) (adj (dat s c) (used v)) (dat s c)) s' /\ has s' c (mkmpi (neg v) (adjust (dg v)))).
Proof.
  intro H. destruct (has_elim _ _ _ H) as (La & U & G & E & N). apply wp_bind. apply madjust_ok; auto; [lia|]. rewrite U, G. intros s' K. apply wp_ret. split; auto. split; auto.
  destruct (adj_adjust (dat s c) (used v) N) as [A1 A2]. rewrite E in A1. eapply has_intro; [apply (proj1 K)|unfold len in *; lia|]. rewrite A1. reflexivity.
Qed.
Lemma shl_bits_ok e c d v s : has s c v -> (used v + 1 <= len s c)%nat ->
  wp (if d =? 0 then ret tt
      else run o <- get c; run r <- shl_loop_m c (o_us o) 0 d 0; if r =? 0 then ret tt else call wr c (o_us o) r; set_us c (o_us o + 1)) e s
    (fun _ s' => exists o, becomes s c o s' /\ (o_us o <= length (o_da o))%nat /\ length (o_da o) = len s c /\ view o = if d =? 0 then v else mkmpi (neg v) (shl_loop (dg v) d 0)).
Proof.
  intros H Hl. destruct (has_elim _ _ _ H) as (La & U & G & E & N). destruct (d =? 0).
  - apply wp_ret. exists (ob s c). split; [apply becomes_refl; auto|]. rewrite U. split; [exact N|]. split; auto. apply ob_view. auto.
  - apply wp_bind. apply wp_get; auto. rewrite U. apply wp_bind. eapply wp_mono; [apply shl_loop_ok; [auto|lia]|]. intros cy s1 (R & LR & K & D).
    unfold seg in D. cbn [skipn] in D. rewrite E in D. unfold over in K. cbn [firstn app Nat.add] in K. unfold chg in K. rewrite U, G in K. unfold len in *.
    destruct (cy =? 0) eqn:Ec.
    + apply wp_ret. eexists. split; [exact K|]. cbn [o_us o_da]. rewrite app_length, skipn_length. split; [lia|]. split; [lia|]. unfold view. cbn [o_sg o_us o_da].
      rewrite firstn_exact by auto. rewrite D, app_nil_r. reflexivity.
    + assert (D1 : dat s1 c = R ++ skipn (used v) (dat s c)) by (unfold dat at 1; rewrite (becomes_ob _ _ _ _ K); reflexivity).
      apply wp_bind. apply wp_wr; [eapply becomes_live; eauto|unfold len; rewrite D1, app_length, skipn_length; lia|].
      apply wp_set_us; [apply live_wput; eapply becomes_live; eauto|]. pose proof (wput_chg s1 c (used v) cy) as B4. unfold chg in B4. rewrite D1, (becomes_ob _ _ _ _ K) in B4. cbn [o_sg o_us] in B4.
      assert (D4 : dat (wput s1 c (used v) cy) c = upd (R ++ skipn (used v) (dat s c)) (used v) cy) by (unfold dat at 1; rewrite (becomes_ob _ _ _ _ B4); reflexivity).
      rewrite D4, (becomes_ob _ _ _ _ B4). cbn [o_sg].
      eexists. split; [eapply becomes_trans; [eapply becomes_trans; [exact K|exact B4]|apply becomes_put]|].
      cbn [o_us o_da o_sg]. rewrite upd_length, app_length, skipn_length. split; [lia|]. split; [lia|].
      unfold view. cbn [o_sg o_us o_da]. rewrite upd_split by (rewrite app_length, skipn_length; lia). rewrite (firstn_exact R) by auto.
      match goal with |- context [R ++ cy :: ?t] => replace (R ++ cy :: t) with ((R ++ [cy]) ++ t) by (rewrite <- app_assoc; reflexivity) end.
      rewrite firstn_exact by (rewrite app_length; cbn; lia). rewrite D. reflexivity.
Qed.
Lemma shl_m_ok e c a n v s : has s a v -> (exists w, has s c w) -> wp (shl_m c a n) e s (leaf e c (Nat.eqb a c) (shl v n) s).
Proof.
  intros H (w & W). unfold shl_m.
  assert (K : wp (if (a =? c)%nat then ret 0 else copy c a) e s (fun rc s1 => leaf e c true v s rc s1 /\ (a = c -> s1 = s))).
  { destruct (Nat.eqb_spec a c) as [->|N]; [apply wp_ret; split; auto; split; auto|eapply wp_mono; [apply copy_ok; eauto; eapply has_live; eauto|]; intros rc s1 L; split; auto; congruence]. }
  apply wp_check. eapply wp_mono; [exact K|]. clear K. intros rc s1 ((A1 & A2 & A3) & A4).
  destruct A3 as [(-> & V & Q)|(-> & S & M)]; cbn [Z.eqb]; [|split; auto; split; auto; right; split; auto; split; auto; destruct (Nat.eqb a c); eauto; exists w; eapply has_same; eauto].
  apply wp_bind. assert (H1 : has s1 a v) by (destruct (Nat.eq_dec a c) as [->|N]; [auto|eapply has_same; [apply A1; auto|auto]]).
  eapply wp_peek; eauto. unfold shl. destruct ((n =? 0) || is_zero v)%bool.
  { apply wp_ret. split; auto. }
  destruct (has_elim _ _ _ V) as (Vl & Vu & Vg & Ve & Vn). apply wp_bind. apply wp_get; auto. rewrite Vu.
  eapply wp_grown; [apply ensure_ok; auto| |].
  - intros s2 G2 Hl2. pose proof (grown_has _ _ _ _ _ _ _ G2 V) as V2. apply wp_check. set (k := Z.to_nat (n / 64)) in *. set (v1 := if 64 <=? n then shld v k else v).
    assert (K : wp (if 64 <=? n then shld_m c k else ret 0) e s2 (fun rc s3 => rc = 0 /\ leaf e c true v1 s2 0 s3 /\ (used v1 + 1 <= len s3 c)%nat)).
    { unfold v1. destruct (64 <=? n).
      - eapply wp_mono; [apply shld_m_ok; eauto|]. intros rc s3 [L1 L2]. destruct (L2 ltac:(lia)) as [-> _]. split; auto. split; auto.
        destruct L1 as (_ & _ & [(_ & _ & L1)|(L1 & _)]); [|discriminate].
        assert ((used (shld v k) <= used v + k)%nat) by (unfold shld, used; destruct (Nat.eqb k 0 || is_zero v)%bool; cbn [dg]; rewrite ?app_length, ?repeat_length; lia). lia.
      - apply wp_ret. split; auto. split; [split; auto|lia]. }
    eapply wp_mono; [exact K|]. clear K. intros rc s3 (-> & L3 & Hl3). cbn [Z.eqb]. apply wp_bind.
    assert (V3 : has s3 c v1) by (destruct L3 as (_ & _ & [(_ & V3 & _)|(F & _)]); [auto|discriminate]).
    eapply wp_mono; [apply shl_bits_ok; eauto|]. intros t s4 (o & B4 & O1 & O2 & O3).
    set (v2 := if n mod 64 =? 0 then v1 else mkmpi (neg v1) (shl_loop (dg v1) (n mod 64) 0)) in *.
    assert (V4 : has s4 c v2) by (exists o; split; [apply B4|auto]).
    eapply wp_mono; [apply adjust_ok; eauto|]. intros rc s5 (-> & B5 & V5). destruct L3 as (C1 & C2 & C3).
    split; [intros x Hx; rewrite (proj1 (proj2 B5)), (proj1 (proj2 B4)), C1, (proj1 G2), A1; auto|].
    split; [destruct B5 as (_ & _ & ->); destruct B4 as (_ & _ & ->); destruct G2 as (_ & G2 & _); lia|].
    left. split; auto. split; [exact V5|]. unfold len at 2, dat. rewrite (becomes_ob _ _ _ _ B5). cbn [o_da]. unfold dat. rewrite (becomes_ob _ _ _ _ B4).
    pose proof (grown_len _ _ _ _ _ c G2). destruct C3 as [(_ & _ & C3)|(F & _)]; [|discriminate]. lia.
  - intros s2 M2 T2 S2. split; [intros x Hx; rewrite M2, A1; auto|]. split; [lia|]. right. split; auto. split; [eapply starved_mono; [exact A2| |exact S2]; lia|].
    destruct (Nat.eqb_spec a c) as [E|N]; [rewrite M2, (A4 E); auto|]. exists v. eapply has_same; [apply M2|auto].
Qed.

(** * Shifts down: they allocate nothing themselves *)
Lemma shrd_m_ok e a n v s : has s a v -> wp (shrd_m a n) e s (fun rc s' => rc = 0 /\ exists o, becomes s a o s' /\ (o_us o <= length (o_da o))%nat /\ view o = shrd v n /\ length (o_da o) = len s a).
Proof.
  intro H. destruct (has_elim _ _ _ H) as (La & U & G & E & N). apply wp_bind. apply wp_get; auto. rewrite U. unfold shrd. rewrite is_zero_used.
  destruct (Nat.eqb n 0 || Nat.eqb (used v) 0)%bool eqn:Z0.
  - apply wp_ret. split; auto. exists (ob s a). split; [apply becomes_refl; auto|]. rewrite U. split; [exact N|]. split; [apply ob_view; auto|reflexivity].
  - destruct (Nat.leb_spec (used v) n) as [Hn|Hn].
    + apply wp_bind. apply zero_ok; auto. intros s' K. apply wp_ret. split; auto. eexists. split; [exact K|]. cbn. split; [lia|auto].
    + apply wp_bind. eapply wp_mono; [apply down_ok; [auto|lia]|]. intros t s1 K1. cbv beta in K1. unfold over, seg in K1. cbn [firstn app Nat.add] in K1.
      assert (E1 : firstn (used v - n) (skipn n (dat s a)) = skipn n (dg v)) by (rewrite <- E, skipn_firstn_comm; reflexivity). rewrite E1 in K1.
      assert (L1 : length (skipn n (dg v)) = (used v - n)%nat) by (rewrite skipn_length; reflexivity). unfold len in *.
      assert (D1 : dat s1 a = skipn n (dg v) ++ skipn (used v - n) (dat s a)) by (apply (chg_dat _ _ _ _ K1)).
      apply wp_bind. eapply wp_mono; [apply fill_ok; [eapply chg_live; eauto|unfold len; rewrite D1, app_length, L1, skipn_length; lia]|].
      intros t' s2 K2. cbv beta in K2. unfold over in K2. rewrite D1 in K2. rewrite (firstn_exact _ _ _ L1) in K2. pose proof (chg_trans _ _ _ _ _ _ K1 K2) as K. unfold chg in K.
      apply wp_bind. apply wp_set_us; [eapply becomes_live; eauto|]. apply wp_ret. split; auto. pose proof (chg_dat s a _ s2 K) as D2.
      rewrite D2, (becomes_ob _ _ _ _ K). cbn [o_sg]. eexists. split; [eapply becomes_trans; [exact K|apply becomes_put]|]. cbn [o_da o_us o_sg].
      assert (LL : length (skipn n (dg v) ++ repeat 0 n ++ skipn (used v - n + n) (skipn n (dg v) ++ skipn (used v - n) (dat s a))) = length (dat s a))
        by (rewrite !app_length, repeat_length, !skipn_length, !app_length, !skipn_length; unfold used in *; lia).
      rewrite LL. split; [lia|]. split; [|reflexivity]. unfold view. cbn [o_sg o_us o_da]. rewrite (firstn_exact _ _ _ L1), G. reflexivity.
Qed.
Lemma shr_bits_ok e c d v s : has s c v ->
  wp (if d =? 0 then ret tt else run o <- get c; shr_loop_m c (o_us o) d 0) e s
    (fun _ s' => exists o, becomes s c o s' /\ (o_us o <= length (o_da o))%nat /\ length (o_da o) = len s c /\ view o = if d =? 0 then v else mkmpi (neg v) (fst (shr_loop (dg v) d))).
Proof.
  intros H. destruct (has_elim _ _ _ H) as (La & U & G & E & N). destruct (d =? 0).
  - apply wp_ret. exists (ob s c). split; [apply becomes_refl; auto|]. rewrite U. split; [exact N|]. split; auto. apply ob_view. auto.
  - apply wp_bind. apply wp_get; auto. rewrite U. eapply wp_mono; [apply shr_loop_ok; [auto|lia]|]. intros t s1 K. cbv beta in K. rewrite E, shr_in_0 in K.
    assert (LR : length (fst (shr_loop (dg v) d)) = used v) by (rewrite <- shr_in_0, shr_in_len; reflexivity). unfold len in *.
    unfold chg in K. eexists. split; [exact K|]. cbn [o_us o_da]. rewrite U, app_length, skipn_length, LR. split; [lia|]. split; [lia|].
    unfold view. cbn [o_sg o_us o_da]. rewrite firstn_exact by auto. rewrite G. reflexivity.
Qed.
Lemma shr_m_ok e c a n v s : has s a v -> live s c -> wp (shr_m c a n) e s (fun rc s' => leaf e c true (shr v n) s rc s' /\ (a = c -> rc = 0 /\ tick s' = tick s)).
Proof.
  intros H W. unfold shr_m.
  assert (K : wp (if (a =? c)%nat then ret 0 else copy c a) e s (fun rc s1 => leaf e c true v s rc s1 /\ (a = c -> s1 = s /\ rc = 0))).
  { destruct (Nat.eqb_spec a c) as [->|N]; [apply wp_ret; split; auto; split; auto|eapply wp_mono; [apply copy_ok; eauto|]; intros rc s1 L; split; auto; congruence]. }
  apply wp_check. eapply wp_mono; [exact K|]. clear K. intros rc s1 ((A1 & A2 & A3) & A4).
  destruct A3 as [(-> & V & Q)|(-> & S & M)]; cbn [Z.eqb]; [|split; [split; auto|intro X; destruct (A4 X); discriminate]].
  apply wp_bind. assert (H1 : has s1 a v) by (destruct (Nat.eq_dec a c) as [->|N]; [auto|eapply has_same; [apply A1; auto|auto]]).
  eapply wp_peek; eauto. unfold shr. destruct ((n =? 0) || is_zero v)%bool.
  { apply wp_ret. split; [split; auto|]. intro X. destruct (A4 X) as [-> _]. auto. }
  set (k := Z.to_nat (n / 64)) in *. set (v1 := if 64 <=? n then shrd v k else v).
  assert (K : wp (if 64 <=? n then shrd_m c k else ret 0) e s1 (fun rc s3 => exists o, becomes s1 c o s3 /\ (o_us o <= length (o_da o))%nat /\ view o = v1 /\ length (o_da o) = len s1 c)).
  { unfold v1. destruct (64 <=? n).
    - eapply wp_mono; [apply shrd_m_ok; eauto|]. intros rc s3 (_ & K). exact K.
    - apply wp_ret. exists (ob s1 c). destruct (has_elim _ _ _ V) as (Vl & Vu & Vg & Ve & Vn). split; [apply becomes_refl; auto|]. rewrite Vu. split; [exact Vn|]. split; [apply ob_view; auto|reflexivity]. }
  apply wp_bind. eapply wp_mono; [exact K|]. clear K. intros rc s3 (o3 & B3 & U3 & V3 & L3). apply wp_bind.
  assert (H3 : has s3 c v1) by (exists o3; split; [apply B3|auto]).
  eapply wp_mono; [apply shr_bits_ok; eauto|]. intros t s4 (o & B4 & O1 & O2 & O3).
  set (v2 := if n mod 64 =? 0 then v1 else mkmpi (neg v1) (fst (shr_loop (dg v1) (n mod 64)))) in *.
  assert (V4 : has s4 c v2) by (exists o; split; [apply B4|auto]).
  eapply wp_mono; [apply adjust_ok; eauto|]. intros rc' s5 (-> & B5 & V5).
  pose proof (becomes_trans _ _ _ _ _ _ (becomes_trans _ _ _ _ _ _ B3 B4) B5) as BB. split.
  - split; [intros x Hx; rewrite (proj1 (proj2 BB)), A1; auto|]. split; [destruct BB as (_ & _ & ->); auto|]. left. split; auto. split; [exact V5|].
    unfold len at 2, dat. rewrite (becomes_ob _ _ _ _ B5). cbn [o_da]. unfold dat. rewrite (becomes_ob _ _ _ _ B4), O2. unfold len at 2, dat. rewrite (becomes_ob _ _ _ _ B3). lia.
  - intro X. destruct (A4 X) as [-> _]. split; auto. apply BB.
Qed.

(** * Initialisation *)
Lemma init_ok e x s : wp (init x) e s (fun rc s' => (forall y, y <> x -> mem s' y = mem s y) /\ (tick s <= tick s')%nat /\
  (rc = 0 /\ has s' x mzero /\ (8 <= len s' x)%nat \/ rc = -1 /\ starved e s s' /\ mem s' x = None)).
Proof.
  apply wp_bind. apply wp_alloc; intro G; apply wp_bind.
  - apply wp_set. apply wp_ret. split; [intros; rewrite put_other by auto; auto|]. split; [cbn; lia|]. left. split; auto. unfold len, dat. rewrite ob_put. cbn [o_da]. rewrite map_length, seq_length.
    split; [|lia]. eapply has_intro; [apply put_same|lia|reflexivity].
  - unfold wp, set, ret. cbn. split; [intros y Hy; rewrite (proj2 (Nat.eqb_neq y x) Hy); auto|]. split; [lia|]. right. split; auto. rewrite Nat.eqb_refl. split; auto.
    exists (tick s). cbn. split; [lia|auto].
Qed.
Lemma init_size_ok e x k s : wp (init_size x k) e s (fun rc s' => (forall y, y <> x -> mem s' y = mem s y) /\ (tick s <= tick s')%nat /\
  (rc = 0 /\ (exists d, mem s' x = Some (mkobj false 0 d) /\ length d = k) \/ rc = -1 /\ starved e s s' /\ mem s' x = None)).
Proof.
  unfold init_size. destruct (Nat.eqb_spec k 0) as [->|N].
  - apply wp_bind. apply wp_set. apply wp_ret. split; [intros; rewrite put_other by auto; auto|]. split; [cbn; lia|]. left. split; auto. exists []. rewrite put_same. auto.
  - apply wp_bind. apply wp_alloc; intro G; apply wp_bind.
    + apply wp_set. apply wp_ret. split; [intros; rewrite put_other by auto; auto|]. split; [cbn; lia|]. left. split; auto. eexists. rewrite put_same. split; [reflexivity|].
      rewrite map_length, seq_length. auto.
    + unfold wp, set, ret. cbn. split; [intros y Hy; rewrite (proj2 (Nat.eqb_neq y x) Hy); auto|]. split; [lia|]. right. split; auto. rewrite Nat.eqb_refl. split; auto.
      exists (tick s). cbn. split; [lia|auto].
Qed.
Lemma clear_ok e x s (Q : unit -> st -> Prop) : live s x -> (forall s', becomes s x void s' -> Q tt s') -> wp (clear x) e s Q.
Proof. intros L H. apply wp_bind. apply wp_get; auto. apply wp_set. apply H. apply becomes_put. Qed.
(** every object of the list loses its buffer, nothing else changes *)
Lemma clear_list_ok e l : forall s, (forall x, In x l -> live s x) ->
  wp (clear_list l) e s (fun _ s' => (forall x, In x l -> mem s' x = Some void) /\ (forall x, ~ In x l -> mem s' x = mem s x) /\ tick s' = tick s).
Proof.
  induction l as [|x l IH]; intros s H; cbn [clear_list].
  - apply wp_ret. split; [intros x []|auto].
  - apply wp_bind. apply clear_ok; [apply H; left; auto|]. intros s1 B1. eapply wp_mono; [apply IH; intros y Hy; eapply becomes_live_o; [exact B1|apply H; right; auto]|].
    intros t s2 (A1 & A2 & A3). split; [|split].
    + intros y [<-|Hy]; [|auto]. destruct (in_dec Nat.eq_dec x l) as [I|I]; [auto|]. rewrite A2 by auto. apply B1.
    + intros y Hy. cbn in Hy. rewrite A2 by tauto. apply B1. intros ->. apply Hy. auto.
    + rewrite A3. apply B1.
Qed.
Lemma init_list_ok e l : forall done s, NoDup (rev done ++ l) -> (forall x, In x done -> live s x) ->
  wp (init_list done l) e s (fun rc s' => (forall y, ~ In y l -> ~ In y done -> mem s' y = mem s y) /\ (tick s <= tick s')%nat /\
    (rc = 0 /\ (forall x, In x l -> has s' x mzero /\ (8 <= len s' x)%nat) /\ (forall x, In x done -> mem s' x = mem s x) \/
     rc = -1 /\ starved e s s' /\ (forall x, In x done -> mem s' x = Some void) /\ (forall x, In x l -> mem s' x = None \/ mem s' x = Some void \/ mem s' x = mem s x))).
Proof.
  induction l as [|x l IH]; intros done s ND H; cbn [init_list].
  - apply wp_ret. split; auto. split; auto. left. split; auto. split; auto. intros x [].
  - apply wp_bind. assert (NX : ~ In x done) by (intro I; apply (NoDup_remove_2 _ _ _ ND); apply in_app_iff; left; apply in_rev; rewrite rev_involutive; auto).
    eapply wp_mono; [apply init_ok|]. intros rc s1 (A1 & A2 & [(-> & V & L)|(-> & S & M)]); cbn [Z.eqb].
    + eapply wp_mono; [apply IH|].
      * cbn [rev]. rewrite <- app_assoc. exact ND.
      * intros y [<-|Hy]; [eapply has_live; eauto|]. unfold live. rewrite A1 by (intros ->; auto). apply H. auto.
      * intros rc s2 (C1 & C2 & C3).
        assert (NL : ~ In x l) by (intro I; apply (NoDup_remove_2 _ _ _ ND); apply in_app_iff; auto).
        split; [intros y Hy Hd; cbn in Hy; rewrite C1, A1; [auto| |tauto|]; [intros ->; tauto|cbn; tauto]|]. split; [lia|].
        destruct C3 as [(-> & C3 & C4)|(-> & C3 & C4 & C5)]; [left|right].
        -- split; auto. split.
           ++ intros y [<-|Hy]; [|auto]. pose proof (C4 x (or_introl eq_refl)) as E. split; [eapply has_same; eauto|]. unfold len, dat, ob. rewrite E. exact L.
           ++ intros y Hy. rewrite C4 by (right; auto). apply A1. intros ->. auto.
        -- split; auto. split; [eapply starved_mono; [exact A2| |exact C3]; lia|]. split; [intros y Hy; apply C4; right; auto|].
           intros y [<-|Hy]; [right; left; apply C4; left; auto|]. destruct (C5 y Hy) as [Q|[Q|Q]]; auto. right. right. rewrite Q. apply A1. intros ->. auto.
    + apply wp_bind. eapply wp_mono; [apply clear_list_ok; intros y Hy; rewrite <- in_rev in Hy; unfold live; rewrite A1 by (intros ->; auto); apply H; auto|].
      intros t s2 (C1 & C2 & C3). apply wp_ret. split; [intros y Hy Hd; cbn in Hy; rewrite C2, A1; [auto|intros ->; tauto|rewrite <- in_rev; auto]|]. split; [lia|].
      right. split; auto. split; [eapply starved_mono; [reflexivity| |exact S]; lia|]. split; [intros y Hy; apply C1; rewrite <- in_rev; auto|].
      intros y Hy. assert (I : ~ In y (rev done)). { intro I. apply (NoDup_remove_2 (rev done) l x) in ND as ND2. destruct Hy as [<-|Hy]; [apply ND2; apply in_app_iff; auto|].
        clear - ND I Hy. induction (rev done) as [|z r IHr]; [destruct I|]. cbn in ND. inversion ND; subst. destruct I as [->|I]; [|auto]. apply H1. apply in_app_iff. right. right. auto. }
      rewrite C2 by auto. destruct Hy as [<-|Hy]; [left; auto|]. right. right. apply A1. intros ->. apply (NoDup_remove_2 _ _ _ ND). apply in_app_iff. auto.
Qed.
Lemma swap_ok e x y s (Q : unit -> st -> Prop) : live s x -> live s y ->
  (forall s', mem s' x = mem s y -> mem s' y = mem s x -> (forall z, z <> x -> z <> y -> mem s' z = mem s z) -> tick s' = tick s -> Q tt s') -> wp (swap x y) e s Q.
Proof.
  intros Lx Ly H. apply wp_bind. apply wp_get; auto. apply wp_bind. apply wp_get; auto. apply wp_bind. apply wp_set. apply wp_set. apply H.
  - destruct (Nat.eq_dec x y) as [->|N]; [rewrite put_same, live_ob; auto|]. rewrite put_other, put_same by auto. rewrite live_ob; auto.
  - rewrite put_same, live_ob; auto.
  - intros z Hx Hy. rewrite !put_other by auto. auto.
  - reflexivity.
Qed.
