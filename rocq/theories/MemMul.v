(** Memory-level model: Comba multiplication and squaring, and the helpers of
    the recursive routines, refine the value-level model. *)
From Verif Require Import Base Lists MpiModel MpiMulModel MemModel MemSpec Mem MemOps MemShift MemMulModel MemLeaf.

Lemma nth_firstn_lt {A} (d : A) : forall k l i, (i < k)%nat -> nth i (firstn k l) d = nth i l d.
Proof. induction k; intros [|x l] [|i] K; cbn; auto; try lia. apply IHk. lia. Qed.
Lemma has_nth s x v i : has s x v -> (i < used v)%nat -> nth i (dat s x) 0 = nth i (dg v) 0.
Proof.
  intros H K. destruct (has_elim _ _ _ H) as (_ & _ & _ & E & N). rewrite <- E. symmetry. apply nth_firstn_lt. auto.
Qed.
Lemma wp_rd_has e s x v i (Q : Z -> st -> Prop) : has s x v -> (i < used v)%nat -> Q (nth i (dg v) 0) s -> wp (rd x i) e s Q.
Proof.
  intros H K J. destruct (has_elim _ _ _ H) as (L & _ & _ & _ & N). apply wp_rd; [auto|lia|]. rewrite (has_nth _ _ _ _ H K). auto.
Qed.
Lemma set_used_ok e x k s (Q : unit -> st -> Prop) : live s x -> (k <= len s x)%nat ->
  (forall s', becomes s x (mkobj (o_sg (ob s x)) k (repeat 0 k ++ skipn k (dat s x))) s' -> Q tt s') -> wp (set_used x k) e s Q.
Proof.
  intros L H K. apply wp_bind. apply wp_get; auto. unfold len, dat in H. rewrite (proj2 (Nat.leb_le _ _) H). apply wp_set. apply K. apply becomes_put.
Qed.

(** * Columns *)
Lemma comba_col_ok e a b va vb s : has s a va -> has s b vb -> forall k tx ty c (Q : Z * Z * Z -> st -> Prop),
  (tx + k <= used va)%nat -> (ty < used vb)%nat -> (k <= ty + 1)%nat -> Q (comba_col muladd (dg va) (dg vb) tx ty k c) s -> wp (comba_col_m a b tx ty k c) e s Q.
Proof.
  intros Ha Hb. induction k; intros tx ty c Q H1 H2 H3 J; cbn [comba_col_m comba_col] in *; [apply wp_ret; auto|].
  apply wp_bind. eapply wp_rd_has; [exact Ha|lia|]. apply wp_bind. eapply wp_rd_has; [exact Hb|lia|].
  destruct k; [cbn [comba_col_m comba_col] in *; apply wp_ret; auto|]. apply IHk; auto; lia.
Qed.
Lemma comba_loop_length ma a b : forall k ix c1 c2, length (comba_loop ma a b k ix c1 c2) = k.
Proof.
  induction k; intros ix c1 c2; cbn [comba_loop]; auto. destruct (comba_col ma a b _ _ _ _) as [[d0 d1] d2]. cbn. rewrite IHk. auto.
Qed.
Lemma has_wput s d i x a v : a <> d -> has s a v -> has (wput s d i x) a v.
Proof. intros N H. eapply has_same; [|exact H]. apply put_other. auto. Qed.
Lemma comba_loop_ok e d a b va vb : d <> a -> d <> b -> (0 < used va)%nat -> (0 < used vb)%nat -> forall k ix c1 c2 s,
  has s a va -> has s b vb -> live s d -> (ix + k <= len s d)%nat -> (ix + k <= used va + used vb)%nat ->
  wp (comba_loop_m d a b (used va) (used vb) k ix c1 c2) e s (fun _ s' => chg s d (over s d ix k (comba_loop muladd (dg va) (dg vb) k ix c1 c2)) s').
Proof.
  intros Na Nb Pa Pb. induction k; intros ix c1 c2 s Ha Hb Ld Hl Hk; cbn [comba_loop_m].
  - apply wp_ret. apply chg_refl; auto. apply paste0.
  - cbn [comba_loop]. fold (used va) (used vb). set (ty := Nat.min ix (used vb - 1)). set (tx := (ix - ty)%nat). set (iy := Nat.min (used va - tx) (ty + 1)).
    apply wp_bind. eapply comba_col_ok; [exact Ha|exact Hb|unfold iy, tx, ty; lia|unfold ty; lia|unfold iy; lia|].
    destruct (comba_col muladd (dg va) (dg vb) tx ty iy (c1, c2, 0)) as [[d0 d1] d2] eqn:E.
    apply wp_bind. apply wp_wr; [auto|lia|].
    eapply wp_mono; [apply IHk; [apply has_wput; auto|apply has_wput; auto|apply live_wput; auto|rewrite len_wput; lia|lia]|].
    intros t s' K. cbv beta in K. apply over_step; [auto|lia|exact K].
Qed.

(** * Writing into a fresh object or into the destination *)
Lemma into_ok e n r pa (same : bool) fillin l w s : calm n s -> (r < n)%nat -> has s r w -> length l = pa -> (0 < pa)%nat ->
  (forall d s1, d = (if same then n else r) -> (forall x, (x < n)%nat -> x <> d -> mem s1 x = mem s x) -> live s1 d -> (pa <= len s1 d)%nat ->
    wp (fillin d) e s1 (fun _ s' => chg s1 d (l ++ skipn pa (dat s1 d)) s')) ->
  wp (into n r pa same fillin) e s (fun rc s' => after e n r true (mkmpi (if same then false else neg w) (adjust l)) s rc s' /\ (rc = 0 -> (pa <= len s' r)%nat)).
Proof.
  intros C R Hr Ll Pa F. unfold into. destruct same.
  - apply wp_check. eapply wp_mono; [apply init_size_ok|]. intros rc s1 (A1 & A2 & [(-> & (d & M & Ld))|(-> & S1 & M)]); cbn [Z.eqb].
    + assert (L1 : live s1 n) by (eapply mem_live; eauto). assert (D1 : dat s1 n = d) by (unfold dat; rewrite (mem_ob _ _ _ M); reflexivity).
      apply wp_bind. apply set_used_ok; [auto|unfold len; rewrite D1; lia|]. intros s2 B2. rewrite (mem_ob _ _ _ M), D1 in B2. cbn [o_sg] in B2.
      assert (D2 : dat s2 n = repeat 0 pa ++ skipn pa d) by (unfold dat; rewrite (becomes_ob _ _ _ _ B2); reflexivity).
      apply wp_bind. eapply wp_mono; [apply F; [reflexivity|intros x Hx Nx; rewrite (proj1 (proj2 B2)), A1 by lia; auto|eapply becomes_live; eauto|unfold len; rewrite D2, app_length, repeat_length; lia]|].
      intros t s3 K3. cbv beta in K3. rewrite D2 in K3. rewrite skipn_exact in K3 by apply repeat_length. rewrite skipn_all2 in K3 by lia. rewrite app_nil_r in K3.
      unfold chg in K3. rewrite (becomes_ob _ _ _ _ B2) in K3. cbn [o_sg o_us] in K3. pose proof (becomes_trans _ _ _ _ _ _ B2 K3) as B3.
      assert (Mr : mem s3 r = mem s r) by (rewrite (proj1 (proj2 B3)), A1 by lia; auto).
      apply wp_bind. apply swap_ok; [unfold live; rewrite Mr; eapply has_live; eauto|eapply becomes_live; eauto|]. intros s4 W1 W2 W3 W4.
      apply wp_bind. apply clear_ok; [unfold live; rewrite W2, Mr; eapply has_live; eauto|]. intros s5 B5.
      assert (M5 : mem s5 r = Some (mkobj false pa l)) by (rewrite (proj1 (proj2 B5)), W1 by lia; apply B3).
      apply wp_bind. apply madjust_ok; [eapply mem_live; eauto|unfold len, dat; rewrite (mem_ob _ _ _ M5); cbn; lia|]. intros s6 B6. apply wp_ret.
      unfold dat in B6. rewrite (mem_ob _ _ _ M5) in B6. cbn [o_sg o_us o_da] in B6. destruct (adj_adjust l pa ltac:(lia)) as [E1 E2]. rewrite (firstn_all2 (n := pa) l) in E1 by lia.
      split; [|intros _; unfold len, dat; rewrite (becomes_ob _ _ _ _ B6); cbn [o_da]; lia]. split; [|split; [split|]].
      * intros x Hx. rewrite (proj1 (proj2 B6)) by lia. destruct (Nat.eq_dec x n) as [->|N]; [right; apply B5|]. rewrite (proj1 (proj2 B5)), W3, (proj1 (proj2 B3)), A1 by lia. apply C. auto.
      * intros x Hx Nx. rewrite (proj1 (proj2 B6)), (proj1 (proj2 B5)), W3, (proj1 (proj2 B3)), A1 by lia. auto.
      * destruct B6 as (_ & _ & ->). destruct B5 as (_ & _ & ->). rewrite W4. destruct B3 as (_ & _ & ->). auto.
      * left. split; auto. eapply has_intro; [apply B6|lia|]. rewrite E1. reflexivity.
    + split; [|discriminate]. split; [|split; [split; [intros x Hx _; apply A1; lia|auto]|]].
      * intros x Hx. destruct (Nat.eq_dec x n) as [->|N]; [left; auto|rewrite A1 by auto; apply C; auto].
      * right. split; auto. split; auto. apply A1. lia.
  - eapply wp_grown; [apply grow_ok; eapply has_live; eauto| |].
    + intros s1 G1 Hl. pose proof (grown_has _ _ _ _ _ _ _ G1 Hr) as H1. destruct (has_elim _ _ _ H1) as (L1 & U1 & S1 & _ & _).
      apply wp_bind. apply set_used_ok; auto. intros s2 B2. rewrite S1 in B2. unfold len in Hl.
      assert (D2 : dat s2 r = repeat 0 pa ++ skipn pa (dat s1 r)) by (unfold dat at 1; rewrite (becomes_ob _ _ _ _ B2); reflexivity).
      apply wp_bind. eapply wp_mono; [apply F; [reflexivity|intros x Hx Nx; rewrite (proj1 (proj2 B2)), (proj1 G1) by auto; auto|eapply becomes_live; eauto|unfold len; rewrite D2, app_length, repeat_length, skipn_length; lia]|].
      intros t s3 K3. cbv beta in K3. rewrite D2 in K3. rewrite skipn_exact in K3 by apply repeat_length.
      unfold chg in K3. rewrite (becomes_ob _ _ _ _ B2) in K3. cbn [o_sg o_us] in K3. pose proof (becomes_trans _ _ _ _ _ _ B2 K3) as B3.
      assert (D3 : dat s3 r = l ++ skipn pa (dat s1 r)) by (unfold dat at 1; rewrite (becomes_ob _ _ _ _ B3); reflexivity).
      apply wp_bind. apply madjust_ok; [eapply becomes_live; eauto|unfold len; rewrite D3, (becomes_ob _ _ _ _ B3), app_length; cbn [o_us]; lia|].
      intros s4 B4. apply wp_ret. rewrite D3, (becomes_ob _ _ _ _ B3) in B4. cbn [o_sg o_us] in B4.
      destruct (adj_adjust (l ++ skipn pa (dat s1 r)) pa ltac:(rewrite app_length; lia)) as [E1 E2]. rewrite (firstn_exact l _ pa Ll) in E1.
      pose proof (becomes_trans _ _ _ _ _ _ B3 B4) as BB.
      split; [|intros _; unfold len, dat; rewrite (becomes_ob _ _ _ _ B4); cbn [o_da]; rewrite app_length; lia].
      apply leaf_after; auto. split; [intros x Hx; rewrite (proj1 (proj2 BB)), (proj1 G1) by auto; auto|]. split; [destruct BB as (_ & _ & ->); apply (proj1 (proj2 G1))|].
      left. split; auto. split; [eapply has_intro; [apply BB|rewrite app_length; lia|rewrite E1; reflexivity]|].
      unfold len at 2, dat at 1. rewrite (becomes_ob _ _ _ _ BB). cbn [o_da]. rewrite app_length, skipn_length. pose proof (grown_len _ _ _ _ _ r G1). unfold len in *. lia.
    + intros s1 A1 A2 A3. split; [apply leaf_after; auto; apply leaf_fail; auto|discriminate].
Qed.

(** What a multiplication routine must do; [rs] is the sign left in place. *)
Definition mul_ok (Mm : nat -> nat -> nat -> nat -> cmd Z) (Mf : bool -> mpi -> mpi -> res mpi) (strong : mpi -> mpi -> bool) : Prop :=
  forall e n r a b va vb w v s, calm n s -> (r < n)%nat -> (a < n)%nat -> (b < n)%nat -> has s a va -> has s b vb -> has s r w ->
    Mf (if (Nat.eqb r a || Nat.eqb r b)%bool then false else neg w) va vb = Ok v -> wp (Mm n r a b) e s (after e n r (strong va vb) v s).
Definition sqr_okm (Mm : nat -> nat -> nat -> cmd Z) (Mf : bool -> mpi -> res mpi) : Prop :=
  forall e n r a va w v s, calm n s -> (r < n)%nat -> (a < n)%nat -> has s a va -> has s r w ->
    Mf (if Nat.eqb r a then false else neg w) va = Ok v -> wp (Mm n r a) e s (after e n r true v s).

Lemma is_zero_pos v : is_zero v = false -> (0 < used v)%nat.
Proof. rewrite is_zero_used. intro H. apply Nat.eqb_neq in H. lia. Qed.
Lemma zero_after e n r s : calm n s -> (r < n)%nat -> live s r -> wp (call zero r; ret 0) e s (after e n r true mzero s).
Proof. intros C R L. eapply wp_mono; [apply zero_leaf; auto|]. intros rc s' K. apply leaf_after; auto. Qed.
Lemma mul_comba_len e n r a b va vb w s : calm n s -> (r < n)%nat -> (a < n)%nat -> (b < n)%nat -> has s a va -> has s b vb -> has s r w ->
  wp (mul_comba_m n r a b) e s (fun rc s' => after e n r true (mul_comba (if (Nat.eqb r a || Nat.eqb r b)%bool then false else neg w) va vb) s rc s' /\
    (rc = 0 -> is_zero va = false -> is_zero vb = false -> (used va + used vb <= len s' r)%nat)).
Proof.
  intros C R Ra Rb Ha Hb Hr. unfold mul_comba_m, mul_comba, mul_comba_gen. apply wp_bind. eapply wp_peek; eauto. apply wp_bind. eapply wp_peek; eauto.
  destruct (is_zero va) eqn:Za; cbn [orb]; [eapply wp_mono; [apply (zero_after e n r s C R (has_live _ _ _ Hr))|]; intros; split; auto; discriminate|].
  destruct (is_zero vb) eqn:Zb; [eapply wp_mono; [apply (zero_after e n r s C R (has_live _ _ _ Hr))|]; intros; split; auto; discriminate|].
  apply is_zero_pos in Za, Zb. eapply wp_mono.
  - apply into_ok with (w := w); auto; [apply comba_loop_length|lia|]. intros d s1 -> A1 L1 Hl.
    destruct (Nat.eqb r a || Nat.eqb r b)%bool eqn:E.
    + eapply wp_mono; [apply comba_loop_ok; [lia|lia|auto|auto|eapply has_same; [apply A1; lia|auto]|eapply has_same; [apply A1; lia|auto]|auto|lia|lia]|].
      intros t s' K. exact K.
    + apply Bool.orb_false_iff in E as [E1 E2]. apply Nat.eqb_neq in E1, E2.
      eapply wp_mono; [apply comba_loop_ok; [lia|lia|auto|auto|eapply has_same; [apply A1; lia|auto]|eapply has_same; [apply A1; lia|auto]|auto|lia|lia]|].
      intros t s' K. exact K.
  - intros rc s' [K1 K2]. split; auto.
Qed.
Lemma mul_comba_m_ok : mul_ok mul_comba_m (fun rs a b => Ok (mul_comba rs a b)) (fun _ _ => true).
Proof.
  intros e n r a b va vb w v s C R Ra Rb Ha Hb Hr F. injection F as <-. eapply wp_mono; [apply mul_comba_len; eauto|]. intros rc s' [K _]. exact K.
Qed.

(** * Squares *)
Lemma sqr_loop_length a : forall k ix c1 c2, length (sqr_loop a k ix c1 c2) = k.
Proof.
  induction k; intros ix c1 c2; cbn [sqr_loop]; auto. match goal with |- context [if Nat.even ix then ?u else ?v] => destruct (if Nat.even ix then u else v) as [[d0 d1] d2] end. cbn. rewrite IHk. auto.
Qed.
Lemma sqr_loop_ok e d a va : d <> a -> (0 < used va)%nat -> forall k ix c1 c2 s,
  has s a va -> live s d -> (ix + k <= len s d)%nat -> (ix + k <= used va + used va)%nat ->
  wp (sqr_loop_m d a (used va) k ix c1 c2) e s (fun _ s' => chg s d (over s d ix k (sqr_loop (dg va) k ix c1 c2)) s').
Proof.
  intros Na Pa. induction k; intros ix c1 c2 s Ha Ld Hl Hk; cbn [sqr_loop_m].
  - apply wp_ret. apply chg_refl; auto. apply paste0.
  - cbn [sqr_loop]. fold (used va). set (ty := Nat.min ix (used va - 1)). set (tx := (ix - ty)%nat). set (iy := Nat.min (Nat.min (used va - tx) (ty + 1)) (Nat.div2 (ty + 1 - tx))).
    cbv zeta. apply wp_bind.
    set (c := if Nat.eqb iy 0 then (c1, c2, 0) else dbl_add (c1, c2, 0) (comba_col muladd (dg va) (dg va) tx ty iy (0, 0, 0))).
    assert (K : forall Q : Z * Z * Z -> st -> Prop, Q c s -> wp (if Nat.eqb iy 0 then ret (c1, c2, 0) else run t <- comba_col_m a a tx ty iy (0, 0, 0); ret (dbl_add (c1, c2, 0) t)) e s Q).
    { intros Q J. unfold c in J. destruct (Nat.eqb iy 0); [apply wp_ret; auto|]. apply wp_bind. eapply comba_col_ok; [exact Ha|exact Ha|unfold iy, tx, ty; lia|unfold ty; lia|unfold iy; lia|]. apply wp_ret. auto. }
    apply K. clear K. apply wp_bind.
    set (c' := if Nat.even ix then muladd c (nth (Nat.div2 ix) (dg va) 0) (nth (Nat.div2 ix) (dg va) 0) else c).
    assert (K : forall Q : Z * Z * Z -> st -> Prop, Q c' s -> wp (if Nat.even ix then run x <- rd a (Nat.div2 ix); ret (muladd c x x) else ret c) e s Q).
    { intros Q J. unfold c' in J. destruct (Nat.even ix) eqn:Ev; [|apply wp_ret; auto]. apply wp_bind. eapply wp_rd_has; [exact Ha| |apply wp_ret; auto].
      apply Nat.even_spec in Ev as (h & ->). rewrite Nat.div2_double. lia. }
    apply K. clear K. destruct c' as [[d0 d1] d2].
    apply wp_bind. apply wp_wr; [auto|lia|].
    eapply wp_mono; [apply IHk; [apply has_wput; auto|apply live_wput; auto|rewrite len_wput; lia|lia]|].
    intros t s' K. cbv beta in K. apply over_step; [auto|lia|exact K].
Qed.
Lemma sqr_comba_m_ok : sqr_okm sqr_comba_m (fun rs a => Ok (sqr_comba rs a)).
Proof.
  intros e n r a va w v s C R Ra Ha Hr F. injection F as <-. unfold sqr_comba_m, sqr_comba. apply wp_bind. eapply wp_peek; eauto.
  destruct (is_zero va) eqn:Za; [apply (zero_after e n r s C R (has_live _ _ _ Hr))|]. apply is_zero_pos in Za.
  eapply wp_mono; [apply into_ok with (w := w) (l := sqr_loop (dg va) (used va + used va) 0 0 0); auto; [apply sqr_loop_length|lia|]|intros rc s' [K _]; exact K].
  intros d s1 -> A1 L1 Hl. destruct (Nat.eqb_spec r a) as [E|E];
    (eapply wp_mono; [apply sqr_loop_ok; [lia|auto|eapply has_same; [apply A1; lia|auto]|auto|lia|lia]|intros t s' K; exact K]).
Qed.
