(** Memory-level model: Toom-3 and the entry points of multiplication and
    squaring. *)
From Verif Require Import Base Lists MpiModel MpiMulModel MemModel MemSpec Mem MemOps MemShift MemMulModel MemLeaf MemMul MemRec MemSim MemKara.

(** * Toom-3 *)
Lemma toom_steps mf va vb g a b v : is_zero va = false -> is_zero vb = false -> g a = va -> g b = vb -> toom3 mf va vb = Ok v ->
  let k := (Nat.min (used va) (used vb) / 3)%nat in
  exists l w l', length l = 13%nat /\ length l' = 13%nat /\
    steps mf (fun _ _ => UB) g [mzero; mzero; mzero; mzero; mzero; mzero; mzero; mzero; mzero; mzero; mzero; mzero; mzero] (toom_split a b k ++ toom_eval ++ toom_interp k) = Ok l /\
    add (nth 0 l mzero) (nth 1 l mzero) = Ok w /\ steps mf (fun _ _ => UB) g l toom_sum = Ok l' /\ add (nth 11 l' mzero) w = Ok v.
Proof.
  intros Z1 Z2 Ga Gb F. unfold toom3 in F. rewrite Z1, Z2 in F. cbn [orb] in F. cbv zeta in F. intro k. fold k in F. rewrite <- Ga, <- Gb in F.
  unfold toom_split, toom_eval, toom_interp, toom_sum. cbv zeta. cbn [app]. step_res F.
  eexists. eexists. eexists. split; [|split; [|split; [go_steps; reflexivity|split; [cbn [nth]; eassumption|split; [go_steps; reflexivity|cbn [nth]; exact F]]]]]; reflexivity.
Qed.
Lemma sim_forget n m gs g l s s' r : sim n m gs g l s -> (r < n)%nat -> (forall x, x <> r -> mem s' x = mem s x) -> sim n m [] g l s'.
Proof.
  intros (Em & C & HL & HG) R A. split; auto. split; [intros x Hx; rewrite A by lia; apply C; auto|]. split; [|intros x []]. intros i Hi. eapply has_same; [apply A; lia|auto].
Qed.
Lemma toom3_m_ok mm mf str : mul_ok mm mf str -> mul_ok (toom3_m mm) (fun _ => toom3 mf) (fun _ _ => false).
Proof.
  intros HM e n r a b va vb w v s C R Ra Rb Ha Hb Hr F. pose proof (has_live _ _ _ Hr) as Lr. unfold toom3_m. apply wp_bind. eapply wp_peek; eauto. apply wp_bind. eapply wp_peek; eauto.
  assert (ZZ : wp (call zero r; ret 0) e s (after e n r false mzero s)) by (eapply wp_mono; [apply (zero_after e n r s C R Lr)|intros rc s' K; apply (after_weak e n r true mzero s rc s'); [exists w; exact Hr|exact K]]).
  destruct (is_zero va) eqn:Za; [unfold toom3 in F; rewrite Za in F; injection F as <-; auto|].
  destruct (is_zero vb) eqn:Zb; [unfold toom3 in F; rewrite Za, Zb in F; injection F as <-; auto|]. cbn [orb]. clear ZZ. cbv zeta.
  destruct (two_values _ _ _ _ _ Ha Hb) as (g & Ga & Gb). destruct (toom_steps _ _ _ g a b _ Za Zb Ga Gb F) as (l1 & w1 & l2 & Ll1 & Ll2 & ST1 & FA & ST2 & FB). clear F.
  set (k := (Nat.min (used va) (used vb) / 3)%nat) in *.
  apply wp_check. eapply wp_mono; [apply (locals8_ok e n [a; b] g 13 s C); intros x [<-|[<-|[]]]; rewrite ?Ga, ?Gb; auto|]. intros rc s1 (A1 & T1 & [(-> & SI & _)|(-> & S1 & C1)]); cbn [Z.eqb].
  2:{ split; auto. split; [split; auto|]. right. split; auto. split; auto. exists w. eapply has_same; [apply A1; auto|auto]. }
  eapply wp_mono; [|intros rc s9 K; eapply (after_from e n r false v s s1); [exact A1|exact R|exact T1|exact K]].
  apply (closing e n 13); [auto|intro x; unfold locals; apply in_seq|]. cbn [repeat] in SI.
  assert (Hr1 : has s1 r w) by (eapply has_same; [apply A1; auto|auto]).
  apply wp_check. eapply wp_mono; [eapply execs_ok; [exact HM|exact nosq_ok|exact SI| |exact ST1]|].
  { clear. unfold toom_split, toom_eval, toom_interp. cbv zeta. cbn [length app]. repeat (constructor; [cbn [ins_ok arg_ok In]; repeat split; try lia; auto|]). constructor. }
  intros rc s2 (B1 & B2 & [(-> & SI2)|(-> & S2 & C2 & L2)]); cbn [Z.eqb].
  2:{ split; [intros; apply B1; auto|]. split; [lia|]. split; [exact L2|]. split; auto. right. split; auto. split; auto. exists w. eapply has_same; [apply B1; auto|auto]. }
  assert (Hr2 : has s2 r w) by (eapply has_same; [apply B1; auto|auto]). replace (add_m r n (n + 1)) with (add_m r (n + 0) (n + 1)) by (f_equal; lia).
  apply wp_check. eapply wp_mono; [eapply add_m_ok; [apply (sim_loc _ _ _ _ _ _ 0%nat SI2); lia|apply (sim_loc _ _ _ _ _ _ 1%nat SI2); lia|exact (has_live _ _ _ Hr2)|exact FA]|].
  intros rc s3 ((D1 & D2 & D3) & _). pose proof (sim_forget _ _ _ _ _ _ _ _ SI2 R D1) as SI3.
  destruct D3 as [(-> & V3 & _)|(-> & S3 & M3)]; cbn [Z.eqb].
  2:{ split; [intros x Hx N; rewrite D1, B1 by auto; auto|]. split; [lia|]. split; [intros x Hx; eapply sim_live; eauto|]. split; [apply SI3|]. right. split; auto. split; [eapply starved_mono; [| |exact S3]; lia|].
      exists w. eapply has_same; [exact M3|auto]. }
  apply wp_check. eapply wp_mono; [eapply execs_ok; [exact HM|exact nosq_ok|exact SI3| |exact ST2]|].
  { unfold toom_sum. rewrite Ll1. repeat (constructor; [cbn [ins_ok arg_ok In]; repeat split; lia|]). constructor. }
  intros rc s4 (E1 & E2 & E3). assert (Hr4 : has s4 r w1) by (eapply has_same; [apply E1; auto|auto]).
  assert (MM : forall x, (x < n)%nat -> x <> r -> mem s4 x = mem s1 x) by (intros x Hx N; rewrite E1, D1, B1 by auto; auto).
  destruct E3 as [(-> & SI4)|(-> & S4 & C4 & L4)]; cbn [Z.eqb].
  2:{ split; auto. split; [lia|]. split; auto. split; auto. right. split; auto. split; [eapply starved_mono; [| |exact S4]; lia|]. exists w1; auto. }
  eapply wp_mono; [eapply add_m_ok; [apply (sim_loc _ _ _ _ _ _ 11%nat SI4); lia|exact Hr4|exact (has_live _ _ _ Hr4)|exact FB]|].
  intros rc s5 ((G1 & G2 & G3) & _). pose proof (sim_forget _ _ _ _ _ _ _ _ SI4 R G1) as SI5.
  split; [intros x Hx N; rewrite G1 by auto; auto|]. split; [lia|]. split; [intros x Hx; eapply sim_live; eauto|]. split; [apply SI5|].
  destruct G3 as [(-> & V5 & _)|(-> & S5 & M5)]; [auto|right]. split; auto. split; [eapply starved_mono; [| |exact S5]; lia|]. exists w1. eapply has_same; [exact M5|auto].
Qed.

(** * The dispatchers *)
Lemma mul_abs_m_ok f : mul_ok (mul_abs_m f) (mul_abs_f f) (fun va vb => Nat.min (used va) (used vb) <=? 300)%nat.
Proof.
  induction f as [|f IH]; intros e n r a b va vb w v s C R Ra Rb Ha Hb Hr F; cbn [mul_abs_f] in F; [discriminate|]. cbn [mul_abs_m].
  apply wp_bind. eapply wp_peek; eauto. apply wp_bind. eapply wp_peek; eauto. cbv zeta in *. rewrite Nat.leb_antisym.
  destruct (300 <? _)%nat; cbn [negb]; [eapply (toom3_m_ok _ _ _ IH); eauto|].
  destruct (64 <? _)%nat; [eapply (karatsuba_m_ok _ _ _ IH); eauto|]. eapply mul_comba_m_ok; eauto.
Qed.
Lemma mul_m_ok : mul_ok mul_m mul (fun va vb => Nat.min (used va) (used vb) <=? 300)%nat.
Proof.
  intros e n r a b va vb w v s C R Ra Rb Ha Hb Hr F. unfold mul_m. apply wp_bind. eapply wp_peek; eauto. apply wp_bind. eapply wp_peek; eauto.
  eapply (mul_gen_ok _ _ _ (mul_abs_m_ok _)); eauto.
Qed.
Lemma sqr_steps sf va g v : is_zero va = false -> sqr_karatsuba sf va = Ok v ->
  let hB := Nat.div2 (used va) in
  exists l, length l = 5%nat /\ steps (fun _ _ _ => UB) sf g [mkmpi false (adjust (firstn hB (dg va))); mkmpi false (skipn hB (dg va)); mzero; mzero; mzero] (sqr_ops hB) = Ok l /\
    add (nth 3 l mzero) (nth 4 l mzero) = Ok v.
Proof.
  intros Z1 F. unfold sqr_karatsuba in F. rewrite Z1 in F. cbv zeta in F. intro hB. fold hB in F. unfold sqr_ops. step_res F.
  eexists. split; [|split; [go_steps; reflexivity|cbn [nth]; exact F]]; reflexivity.
Qed.
Lemma sqr_karatsuba_m_ok sm sf : sqr_okm sm sf -> sqr_okm (sqr_karatsuba_m sm) (fun _ => sqr_karatsuba sf).
Proof.
  intros HS e n r a va w v s C R Ra Ha Hr F. pose proof (has_live _ _ _ Hr) as Lr. unfold sqr_karatsuba_m. apply wp_bind. eapply wp_peek; eauto.
  destruct (is_zero va) eqn:Za; [unfold sqr_karatsuba in F; rewrite Za in F; injection F as <-; apply zero_after; auto|]. cbv zeta.
  destruct (two_values _ _ _ _ _ Ha Ha) as (g & Ga & _). destruct (sqr_steps _ _ g _ Za F) as (l' & Ll & ST & FA). clear F.
  set (hB := Nat.div2 (used va)) in *. assert (Hh : (hB <= used va)%nat) by (unfold hB; rewrite Nat.div2_div; apply Nat.div_le_upper_bound; lia).
  apply wp_check. pose proof (locals_ok e n [a] g [hB; used va - hB; 2 * hB; 2 * hB; 2 * hB]%nat s C) as LK. cbn [length seq combine] in LK.
  replace (S n) with (n + 1)%nat in LK by lia. replace (S (n + 1)) with (n + 2)%nat in LK by lia. replace (S (n + 2)) with (n + 3)%nat in LK by lia. replace (S (n + 3)) with (n + 4)%nat in LK by lia.
  eapply wp_mono; [apply LK; intros x [<-|[]]; rewrite ?Ga; auto|]. clear LK. intros rc s1 (A1 & T1 & [(-> & SI & LN)|(-> & S1 & C1)]); cbn [Z.eqb].
  2:{ split; auto. split; [split; auto|]. right. auto. }
  eapply wp_mono; [|intros rc s9 K; eapply (after_from e n r true v s s1); [exact A1|exact R|exact T1|exact K]].
  apply (closing e n 5); [auto|cbn [In]; intro x; lia|].
  pose proof (LN 0%nat ltac:(lia)) as N0. pose proof (LN 1%nat ltac:(lia)) as N1. cbn [nth] in N0, N1. clear LN.
  replace (take n a 0 hB) with (take (n + 0) a 0 hB) by (f_equal; lia). cbn [repeat] in SI.
  apply wp_bind. eapply take_sim; [exact SI|cbn; lia|reflexivity|left; auto|rewrite Ga; lia|lia|]. intros s2 SI2 M2 T2.
  apply wp_bind. eapply take_sim; [exact SI2|cbn; lia|reflexivity|left; auto|rewrite Ga; lia|rewrite (len_mem s1) by (apply M2; lia); lia|]. intros s3 SI3 M3 T3.
  replace (madjust n) with (madjust (n + 0)) by (f_equal; lia).
  apply wp_bind. eapply adj_sim; [exact SI3|cbn; lia|]. intros s4 SI4 M4 T4.
  clear SI SI2 SI3. cbn [upd nth neg dg] in SI4. rewrite Ga in SI4. rewrite !skipn_O in SI4. rewrite (firstn_all2 (n := (used va - hB)%nat)) in SI4 by (rewrite skipn_length; unfold used; lia).
  apply wp_check. eapply wp_mono; [eapply execs_ok; [exact nomul_ok|exact HS|exact SI4| |exact ST]|].
  { clear. unfold sqr_ops. cbn [length]. repeat (constructor; [cbn [ins_ok arg_ok]; repeat split; lia|]). constructor. }
  intros rc s8 (B1 & B2 & B3). assert (MM : forall x, (x < n)%nat -> mem s8 x = mem s1 x) by (intros x Hx; rewrite B1, M4, M3, M2 by lia; auto).
  assert (TT : (tick s4 = tick s1)%nat) by congruence.
  destruct B3 as [(-> & SI8)|(-> & S8 & C8 & L8)]; cbn [Z.eqb].
  - eapply finish_add; [exact SI8|lia|lia|auto|unfold live; rewrite A1; auto|exact FA|exact MM|lia].
  - split; [intros; apply MM; auto|]. split; [lia|]. split; [exact L8|]. split; auto. right. split; auto. split; [eapply starved_mono; [| |exact S8]; lia|auto].
Qed.
Lemma sqr_abs_m_ok f : sqr_okm (sqr_abs_m f) (sqr_f f).
Proof.
  induction f as [|f IH]; intros e n r a va w v s C R Ra Ha Hr F; cbn [sqr_f] in F; [discriminate|]. cbn [sqr_abs_m].
  apply wp_bind. eapply wp_peek; eauto. destruct (64 <? _)%nat; [eapply (sqr_karatsuba_m_ok _ _ IH); eauto|eapply sqr_comba_m_ok; eauto].
Qed.
Lemma sqr_m_ok : sqr_okm sqr_m sqr.
Proof. intros e n r a va w v s C R Ra Ha Hr F. unfold sqr_m. apply wp_bind. eapply wp_peek; eauto. eapply sqr_abs_m_ok; eauto. Qed.
(** multiplication by a digit: the local number is gone afterwards *)
Lemma mul_dig_m_ok e n r a d va w v s : calm n s -> (r < n)%nat -> (a < n)%nat -> has s a va -> has s r w -> mul_dig (if Nat.eqb r a then false else neg w) va d = Ok v ->
  wp (mul_dig_m n r a d) e s (after e n r true v s).
Proof.
  intros C R Ra Ha Hr F. unfold mul_dig_m. apply wp_bind. apply wp_set. set (s1 := put s n (mkobj false 1 [d])).
  assert (M : forall x, x <> n -> mem s1 x = mem s x) by (intros; apply put_other; auto). assert (Hn : has s1 n (mkmpi false [d])) by (eapply has_intro; [apply put_same|cbn; lia|reflexivity]).
  apply wp_finally. eapply wp_mono; [eapply (mul_m_ok e (n + 1)%nat r a n va (mkmpi false [d]) w v s1)|]; try lia; auto.
  - intros x Hx. rewrite M by lia. apply C. lia.
  - eapply has_same; [apply M; lia|auto].
  - eapply has_same; [apply M; lia|auto].
  - rewrite (proj2 (Nat.eqb_neq r n)) by lia. rewrite Bool.orb_false_r. exact F.
  - intros rc s2 (A1 & (A2 & A3) & A4). replace (Nat.min (used va) (used (mkmpi false [d])) <=? 300)%nat with true in A4 by (symmetry; apply Nat.leb_le; cbn; lia).
    assert (W : forall (Q : unit -> st -> Prop), (forall s3, (forall x, x <> n -> mem s3 x = mem s2 x) -> mem s3 n = None -> tick s3 = tick s2 -> Q tt s3) -> wp (set n None) e s2 Q).
    { intros Q H. apply H; cbn [mem tick]; auto; [intros x N; rewrite (proj2 (Nat.eqb_neq _ _)); auto|rewrite Nat.eqb_refl; auto]. }
    apply W. intros s3 B1 B2 B3. split; [|split; [split|]].
    + intros x Hx. destruct (Nat.eq_dec x n) as [->|N]; [auto|]. rewrite B1 by auto. apply A1. lia.
    + intros x Hx N. rewrite B1, A2, M by lia. auto.
    + rewrite B3. exact A3.
    + destruct A4 as [(-> & V)|(-> & S2 & V)]; [left; split; auto; eapply has_same; [apply B1; lia|auto]|right]. split; auto. split; [|rewrite B1, V, M by lia; auto].
      destruct S2 as (k & K1 & K2). exists k. split; auto. rewrite B3. exact K1.
Qed.
