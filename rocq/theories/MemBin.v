(** Memory-level cry_mpi_load_bin, cry_mpi_rand and cry_mpi_rand_range: whatever
    allocations are refused. *)
From Verif Require Import Base Lists BytesSpec Bytes Bits MpiModel MpiSpec MpiDigits MpiMulModel MpiCanon MpiDivModel MpiDiv MpiAlgModel MpiAlg MpiAlg2 MpiIOModel MpiIO MpiTextSpec MpiRand MemModel MemMulModel MemDivModel MemAlgModel MemSpec Mem MemOps MemShift MemLeaf MemMul MemSim MemToom MemMulSafe MemDiv MemDivA MemDivSafe MemLoc MemGcd MemExp MemInv MemEcpModel.
Ltac Zify.zify_post_hook ::= idtac.

Lemma ok_inj {A} (x y : A) : Ok x = Ok y -> x = y.
Proof. congruence. Qed.

(** * Bytes to digits *)
Lemma store_down_ok e x p : forall d m i s acc, live s x -> (i <= len s x)%nat -> 0 <= m <= 7 ->
  (i = 0%nat /\ p = [] \/ exists j, i = S j /\ Z.of_nat (length p) = m + 1 + 8 * Z.of_nat j) ->
  exists l, snd (fold_left lb_step p (d, m, acc)) = l ++ acc /\ length l = i /\
  wp (store_down x d m i p) e s (fun _ s' => chg s x (l ++ skipn i (dat s x)) s').
Proof.
  induction p as [|b p IH]; intros d m i s acc L Li Hm HL.
  - destruct HL as [(-> & _)|(j & -> & E)]; [|cbn [length] in E; lia]. exists []. cbn [fold_left snd app length store_down skipn]. split; auto. split; auto.
    apply wp_ret. apply chg_refl; auto.
  - destruct HL as [(_ & F)|(j & -> & E)]; [discriminate F|]. cbn [length] in E. cbn [fold_left store_down]. unfold lb_step at 2.
    set (d' := Z.lor (Z.shiftl d 8 mod B) b). destruct (Z.eqb_spec m 0) as [->|Nm].
    + set (s1 := wput s x j d'). assert (C1 : chg s x (upd (dat s x) j d') s1) by apply wput_chg.
      destruct (IH 0 7 j s1 (d' :: acc)) as (l & F & Ll & W).
      * eapply chg_live; eauto.
      * unfold len. rewrite (chg_dat _ _ _ _ C1), upd_length. fold (len s x). lia.
      * lia.
      * destruct j as [|j]; [left|right; exists j; split; auto; lia]. split; auto. destruct p; [auto|cbn [length] in E; lia].
      * exists (l ++ [d']). rewrite F, <- app_assoc. split; auto. split; [rewrite app_length; cbn; lia|].
        apply wp_bind. apply wp_wr; [auto|lia|]. fold s1. eapply wp_mono; [exact W|]. intros t s' C2. rewrite (chg_dat _ _ _ _ C1) in C2. eapply chg_ext; [eapply chg_trans; eauto|].
        rewrite <- app_assoc. f_equal. cbn [app]. unfold len in Li. rewrite (Mem.skipn_nth _ 0 j) by (rewrite upd_length; lia). rewrite upd_nth by lia. rewrite Nat.eqb_refl.
        f_equal. apply skipn_upd. lia.
    + apply IH; auto; [lia|]. right. exists j. split; auto. lia.
Qed.
Lemma load_bin_leaf e x buf s : live s x -> wp (load_bin_m x buf) e s (leaf e x true (load_bin (o_sg (ob s x)) buf) s).
Proof.
  intro L. unfold load_bin_m, load_bin. destruct (skip_zeros buf) as [|b p'] eqn:Eb; [apply zero_leaf; auto|]. set (p := b :: p'). set (i := S ((length p - 1) / 8)). cbv zeta.
  eapply wp_grown; [apply ensure_ok; auto| |].
  2:{ intros s1 M T S. split; auto. }
  intros s1 G L1. pose proof (grown_live _ _ _ _ _ _ G L) as Lv. pose proof (grown_len _ _ _ _ _ x G) as GL.
  assert (Sg : o_sg (ob s1 x) = o_sg (ob s x)).
  { destruct G as (_ & _ & [(_ & (t & M) & _)|(F & _)]); [|discriminate]. rewrite (mem_ob _ _ _ M). reflexivity. }
  assert (T1 : (tick s <= tick s1)%nat) by apply G. assert (O1 : forall y, y <> x -> mem s1 y = mem s y) by apply G.
  apply wp_bind. apply wp_set_us; auto. set (s2 := put s1 x _). assert (B2 : becomes s1 x (mkobj (o_sg (ob s1 x)) i (dat s1 x)) s2) by apply becomes_put. clearbody s2.
  assert (E2 : dat s2 x = dat s1 x) by (eapply becomes_dat; eauto).
  destruct (store_down_ok e x p 0 ((Z.of_nat (length p) - 1) mod 8) i s2 []) as (l & F & Ll & W).
  - eapply becomes_live; eauto.
  - unfold len. rewrite E2. exact L1.
  - pose proof (Z.mod_pos_bound (Z.of_nat (length p) - 1) 8 ltac:(lia)). lia.
  - right. eexists. split; [reflexivity|]. assert (1 <= length p)%nat by (unfold p; cbn [length]; lia). rewrite Nat2Z.inj_div, Nat2Z.inj_sub by auto. change (Z.of_nat 8) with 8. change (Z.of_nat 1) with 1.
    pose proof (Z.div_mod (Z.of_nat (length p) - 1) 8 ltac:(lia)). lia.
  - assert (Hm : Z.of_nat (length p - 1) mod 8 = (Z.of_nat (length p) - 1) mod 8) by (f_equal; unfold p; cbn [length]; lia). rewrite Hm.
    apply wp_bind. eapply wp_mono; [exact W|]. intros t s3 C3. apply wp_ret. unfold chg in C3. rewrite (becomes_ob _ _ _ _ B2) in C3. cbn [o_sg o_us] in C3.
    pose proof (becomes_trans _ _ _ _ _ _ B2 C3) as B3. eapply leaf_ok with (s1 := s1); auto. eexists. split; [exact B3|]. cbn [o_us o_da view o_sg]. rewrite E2, app_length, skipn_length, Ll.
    fold (len s1 x). split; [lia|]. split; [|lia]. rewrite app_nil_r in F.
    destruct (fold_left lb_step p (0, (Z.of_nat (length p) - 1) mod 8, [])) as [[d0 m0] acc]. cbn [snd] in F. subst acc.
    unfold view. cbn [o_us o_da o_sg]. rewrite Sg. f_equal.
    rewrite firstn_app, Ll, Nat.sub_diag, firstn_O, app_nil_r. rewrite <- Ll. apply firstn_all.
Qed.

(** * Random numbers *)
Lemma wr_has e x i d v s (Q : unit -> st -> Prop) : has s x v -> (i < len s x)%nat ->
  (forall s', has s' x (mkmpi (neg v) (if (i <? used v)%nat then upd (dg v) i d else dg v)) -> (forall y, y <> x -> mem s' y = mem s y) -> tick s' = tick s ->
    len s' x = len s x -> nth i (dat s' x) 0 = d -> Q tt s') -> wp (wr x i d) e s Q.
Proof.
  intros H L K. destruct (has_elim _ _ _ H) as (Lv & U & Sg & D & Lu). apply wp_wr; auto. set (s1 := wput s x i d). assert (C : chg s x (upd (dat s x) i d) s1) by apply wput_chg. clearbody s1.
  pose proof (chg_dat _ _ _ _ C) as E. unfold len in *. destruct C as (C1 & C2 & C3). apply K; auto.
  - eapply has_intro; [exact C1|rewrite upd_length, U; exact Lu|]. rewrite Sg, U. f_equal. destruct (Nat.ltb_spec i (used v)) as [I|I].
    + rewrite <- D. apply nth_ext with (d := 0) (d' := 0).
      * rewrite upd_length, !firstn_length, upd_length. reflexivity.
      * rewrite upd_length, firstn_length_le by auto. intros j Hj. rewrite upd_nth by (rewrite firstn_length_le; auto). rewrite !nth_firstn_lt by auto. rewrite upd_nth by lia. reflexivity.
    + rewrite firstn_upd by auto. symmetry. exact D.
  - rewrite E. apply upd_length.
  - rewrite E, upd_nth, Nat.eqb_refl by auto. reflexivity.
Qed.
Lemma rand_leaf e x bits bin s v0 v : has s x v0 -> 0 <= bits -> rand (neg v0) (len s x) bits bin = Ok v ->
  (ndigs bits <= len s x)%nat \/ (ndigs bits <= used (load_bin (neg v0) bin))%nat -> wp (rand_m x bits bin) e s (leaf e x true v s).
Proof.
  intros H Hb E HA. unfold rand_m, rand in *. destruct (Z.eqb_spec bits 0) as [->|Nb].
  { apply ok_inj in E. subst v. apply zero_leaf. eapply has_live; eauto. }
  apply wp_bind, wp_alloc; intro G.
  2:{ apply wp_ret. split; auto. split; [cbn; lia|]. right. split; auto. split; auto. apply next_starved; auto. }
  cbv zeta in E. fold (ndigs bits) in E. destruct (ndigs_ok bits ltac:(lia)) as [D0 D1].
  assert (Hi : Z.to_nat ((bits - 1) / 64) = (ndigs bits - 1)%nat) by (unfold ndigs; assert (0 <= (bits - 1) / 64) by (apply Z.div_pos; lia); lia).
  rewrite Hi. replace (bits - 64 * (Z.of_nat (ndigs bits) - 1)) with (bits - 64 * Z.of_nat (ndigs bits - 1)) in E by lia.
  set (msb := bits - 64 * Z.of_nat (ndigs bits - 1)) in *. set (i := (ndigs bits - 1)%nat) in *. destruct (has_elim _ _ _ H) as (Lv & U & Sg & _).
  apply wp_check. set (s1 := next s) in *. assert (Hs1 : mem s1 = mem s) by reflexivity. assert (Lv1 : live s1 x) by (unfold live; rewrite Hs1; auto).
  assert (Sg1 : o_sg (ob s1 x) = neg v0) by (unfold ob; rewrite Hs1; exact Sg). assert (Len1 : len s1 x = len s x) by (unfold len, dat, ob; rewrite Hs1; reflexivity).
  assert (T1 : (tick s <= tick s1)%nat) by (cbn; lia).
  eapply wp_mono; [apply load_bin_leaf; exact Lv1|]. rewrite Sg1. intros rc s2 (M2 & T2 & [(-> & H2 & L2)|(-> & S2 & M2')]).
  2:{ cbn [Z.eqb]. split; [intros y Hy; rewrite M2 by auto; rewrite Hs1; auto|]. split; [lia|]. right. split; auto. split; [eapply starved_mono; [exact T1|apply Nat.le_refl|exact S2]|rewrite M2'; rewrite Hs1; reflexivity]. }
  cbn [Z.eqb]. set (r := load_bin (neg v0) bin) in *. destruct (has_elim _ _ _ H2) as (Lv2 & U2 & Sg2 & D2 & Lu2).
  assert (I2 : (i < len s2 x)%nat) by (unfold i; lia).
  assert (V : exists d0, v = mkmpi (neg r) (if (i <? used r)%nat then upd (dg r) i (Z.lor (if msb <? 64 then Z.land d0 (Z.shiftl 1 msb - 1) else d0) (Z.shiftl 1 (msb - 1))) else dg r) /\ d0 = nth i (dat s2 x) 0).
  { eexists. split; [|reflexivity]. destruct (Nat.leb_spec (ndigs bits) (used r)) as [LE|LT].
    - apply ok_inj in E. rewrite <- E. replace (i <? used r)%nat with true by (symmetry; apply Nat.ltb_lt; unfold i; lia). f_equal. f_equal. rewrite <- D2. rewrite nth_firstn_lt by (unfold i; lia). reflexivity.
    - replace (i <? used r)%nat with false by (symmetry; apply Nat.ltb_ge; unfold i; lia). destruct (_ <=? _)%nat in E; [|discriminate E]. apply ok_inj in E. rewrite <- E. destruct r; reflexivity. }
  destruct V as (d0 & -> & Ed).
  assert (Tail : forall s3 w, has s3 x w -> neg w = neg r -> used w = used r -> (forall d, (if (i <? used r)%nat then upd (dg w) i d else dg w) = (if (i <? used r)%nat then upd (dg r) i d else dg r)) ->
    len s3 x = len s2 x -> (forall y, y <> x -> mem s3 y = mem s2 y) -> tick s3 = tick s2 -> nth i (dat s3 x) 0 = (if msb <? 64 then Z.land d0 (Z.shiftl 1 msb - 1) else d0) ->
    wp (run d <- rd x i; call wr x i (Z.lor d (Z.shiftl 1 (msb - 1))); ret 0) e s3
      (leaf e x true (mkmpi (neg r) (if (i <? used r)%nat then upd (dg r) i (Z.lor (if msb <? 64 then Z.land d0 (Z.shiftl 1 msb - 1) else d0) (Z.shiftl 1 (msb - 1))) else dg r)) s)).
  { intros s3 w W1 W2 W3 W4 W5 W6 W7 W8. apply wp_bind. apply wp_rd; [eapply has_live; eauto|lia|]. rewrite W8. apply wp_bind. eapply wr_has; [exact W1|lia|].
    intros s4 A1 A2 A3 A4 _. apply wp_ret. rewrite W2, W3, W4 in A1. split; [intros y Hy; rewrite A2, W6, M2 by auto; rewrite Hs1; auto|]. split; [lia|]. left. split; auto. split; [exact A1|lia]. }
  apply wp_bind. destruct (Z.ltb_spec msb 64) as [Lm|Lm].
  - apply wp_bind. apply wp_rd; auto. rewrite <- Ed. eapply wr_has; [exact H2|auto|]. intros s3 A1 A2 A3 A4 A5.
    eapply Tail; [exact A1|reflexivity| | |auto|auto|auto|exact A5]; unfold used; cbn [dg]; destruct (Nat.ltb_spec i (length (dg r))); try reflexivity.
    + apply upd_length.
    + intro d. apply upd_twice.
  - apply wp_ret. eapply Tail; eauto.
Qed.
Lemma rand_det rs a1 a2 bits bin v1 v2 : rand rs a1 bits bin = Ok v1 -> rand rs a2 bits bin = Ok v2 -> v1 = v2.
Proof.
  unfold rand. destruct (bits =? 0); [congruence|]. cbv zeta. destruct (_ <=? used _)%nat; [congruence|].
  destruct (_ <=? _)%nat; [|discriminate]. destruct (_ <=? _)%nat; [congruence|discriminate].
Qed.
Lemma rand_range_det rs a1 a2 m bin v1 v2 : rand_range rs a1 m bin = Ok v1 -> rand_range rs a2 m bin = Ok v2 -> v1 = v2.
Proof.
  unfold rand_range. destruct (rand rs a1 (count_bits m) bin) as [r1| | |] eqn:E1; try discriminate. destruct (rand rs a2 (count_bits m) bin) as [r2| | |] eqn:E2; try discriminate.
  rewrite (rand_det _ _ _ _ _ _ _ E1 E2). cbn [bind]. congruence.
Qed.
Lemma rand_range_after e n x mx bin s m v0 : calm n s -> (x < n)%nat -> (mx < n)%nat -> x <> mx -> has s x v0 -> neg v0 = false -> has s mx (ofZ m) -> 0 < m -> draw_for m bin ->
  (used (ofZ m) <= len s x)%nat \/ B ^ (Z.of_nat (used (ofZ m)) - 1) <= be_val bin ->
  exists r, 0 <= r < m /\ rand_range false (len s x) (ofZ m) bin = Ok (ofZ r) /\ wp (rand_range_m n x mx bin) e s (after e n x false (ofZ r) s).
Proof.
  intros C Lx Lm Nx H N0 Hm Pm HD HA. destruct (rand_range_ok (len s x) m bin Pm HD HA) as (r & E & Hr). exists r. split; auto. split; auto.
  assert (Cb : count_bits (ofZ m) = Z.log2 m + 1).
  { rewrite count_bits_ofZ. destruct (Z.eqb_spec m 0); [lia|]. rewrite Z.abs_eq by lia. reflexivity. }
  pose proof (Z.log2_nonneg m) as L0. destruct HD as [HB HL].
  unfold rand_range in E. destruct (rand_ok false (len s x) (count_bits (ofZ m)) bin) as (v & Ev & W & Ng & _).
  { lia. } { exact HB. } { rewrite HL, Cb. f_equal. lia. } { rewrite ndigs_used by auto. exact HA. }
  rewrite Ev in E. cbn [bind] in E.
  assert (Cv : v = ofZ (mval v)) by (apply is_ofZ; [apply wf_canon; auto; rewrite Ng; destruct (_ =? _); auto|reflexivity]).
  assert (Pv : 0 <= mval v). { unfold mval. rewrite Ng. pose proof (val_nonneg _ (proj1 W)). destruct (_ =? _); auto. }
  unfold rand_range_m. apply wp_bind. eapply wp_peek; [exact Hm|]. apply wp_check.
  eapply wp_mono; [eapply (rand_leaf e x _ bin s v0 v); [exact H|lia|rewrite N0; exact Ev|]|].
  { rewrite ndigs_used by auto. destruct HA as [HA|HA]; [left; exact HA|right]. rewrite N0. destruct (load_bin_ok false bin HB) as (Wl & Vl & _).
    destruct (Nat.le_gt_cases (used (ofZ m)) (used (load_bin false bin))) as [?|Lt]; auto. exfalso. pose proof (val_lt _ (proj1 Wl)) as VL. rewrite Vl in VL. fold (used (load_bin false bin)) in VL.
    assert (B ^ Z.of_nat (used (load_bin false bin)) <= B ^ (Z.of_nat (used (ofZ m)) - 1)) by (apply Z.pow_le_mono_r; [apply B_pos|lia]). lia. }
  intros rc s1 Lf. pose proof (leaf_after _ _ _ _ _ _ _ _ Lx C Lf) as (C1 & (K1 & T1) & [(-> & V1)|(-> & S1 & V1)]); cbn [Z.eqb].
  2:{ split; auto. split; [split; auto|]. right. split; auto. split; auto. exists v0. eapply has_same; eauto. }
  apply wp_bind. eapply wp_peek; [exact V1|]. rewrite Cv in E, V1 |- *. destruct (0 <=? cmp_abs (ofZ (mval v)) (ofZ m)) eqn:Ec.
  - eapply wp_mono; [apply (mod_safe e s1 n x x mx (mval v) m); auto|].
    + eapply has_same; [apply K1; auto|exact Hm].
    + eexists; exact V1.
    + rewrite mod_ofZ in E by lia. apply ok_inj in E. rewrite E. intros rc s2 (C2 & (K2 & T2) & D2). split; auto. split; [split; [intros y Hy Ny; rewrite K2, K1 by auto; auto|lia]|].
      destruct D2 as [D2|(-> & S2 & D2)]; [left; auto|right]. split; auto. split; [eapply starved_mono; [exact T1|apply Nat.le_refl|exact S2]|].
      destruct (m <=? Z.abs (mval v)); [|exact D2]. eexists. eapply has_same; [exact D2|exact V1].
  - apply wp_ret. apply ok_inj in E. rewrite <- E. split; auto. split; [split; auto|]. left. auto.
Qed.
