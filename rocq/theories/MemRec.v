(** Memory-level model: helpers of the recursive multiplication routines, and
    the simulation of straight-line code. *)
From Verif Require Import Base Lists MpiModel MpiMulModel MemModel MemSpec Mem MemOps MemShift MemMulModel MemLeaf MemMul.

(** * Initialisation *)
Lemma init_sizes_ok e l : forall done s, NoDup (done ++ map fst l) -> (forall x, In x done -> live s x) ->
  wp (init_sizes done l) e s (fun rc s' => (forall y, ~ In y (map fst l) -> ~ In y done -> mem s' y = mem s y) /\ (tick s <= tick s')%nat /\
    (rc = 0 /\ (forall x k, In (x, k) l -> exists d, mem s' x = Some (mkobj false 0 d) /\ length d = k) /\ (forall x, In x done -> mem s' x = mem s x) \/
     rc = -1 /\ starved e s s' /\ (forall x, In x done -> mem s' x = Some void) /\ (forall x, In x (map fst l) -> mem s' x = None \/ mem s' x = Some void \/ mem s' x = mem s x))).
Proof.
  induction l as [|[x k] l IH]; intros done s ND H; cbn [init_sizes map fst] in *.
  - apply wp_ret. split; auto. split; auto. left. split; auto. split; auto. intros x k [].
  - pose proof (NoDup_remove_2 _ _ _ ND) as NX. rewrite in_app_iff in NX.
    apply wp_bind. eapply wp_mono; [apply init_size_ok|]. intros rc s1 (A1 & A2 & [(-> & (d & M & L))|(-> & S & M)]); cbn [Z.eqb].
    + eapply wp_mono; [apply IH|].
      * cbn [app]. constructor; [rewrite in_app_iff; auto|]. eapply NoDup_remove_1; eauto.
      * intros y [<-|Hy]; [eapply mem_live; eauto|]. unfold live. rewrite A1 by (intros ->; auto). apply H. auto.
      * intros rc s2 (C1 & C2 & C3).
        split; [intros y Hy Hd; cbn in Hy; rewrite C1, A1; [auto| |tauto|]; [intros ->; tauto|cbn; tauto]|]. split; [lia|].
        destruct C3 as [(-> & C3 & C4)|(-> & C3 & C4 & C5)]; [left|right].
        -- split; auto. split.
           ++ intros y k' [E|Hy]; [|auto]. injection E as <- <-. exists d. rewrite (C4 x (or_introl eq_refl)). auto.
           ++ intros y Hy. rewrite C4 by (right; auto). apply A1. intros ->. auto.
        -- split; auto. split; [eapply starved_mono; [exact A2| |exact C3]; lia|]. split; [intros y Hy; apply C4; right; auto|].
           intros y [<-|Hy]; [right; left; apply C4; left; auto|]. destruct (C5 y Hy) as [Q|[Q|Q]]; auto. right. right. rewrite Q. apply A1. intros ->. auto.
    + apply wp_bind. eapply wp_mono; [apply clear_list_ok; intros y Hy; unfold live; rewrite A1 by (intros ->; auto); apply H; auto|].
      intros t s2 (C1 & C2 & C3). apply wp_ret. split; [intros y Hy Hd; cbn in Hy; rewrite C2, A1; [auto|intros ->; tauto|auto]|]. split; [lia|].
      right. split; auto. split; [eapply starved_mono; [reflexivity| |exact S]; lia|]. split; [intros y Hy; apply C1; auto|].
      intros y Hy. assert (I : ~ In y done). { intro I. destruct Hy as [<-|Hy]; [auto|].
        clear - ND I Hy. induction done as [|z r IHr]; [destruct I|]. cbn in ND. inversion ND; subst. destruct I as [->|I]; [|auto]. apply H1. apply in_app_iff. right. right. auto. }
      rewrite C2 by auto. destruct Hy as [<-|Hy]; [left; auto|]. right. right. apply A1. intros ->. auto.
Qed.
Lemma take_ok e d a off k va s (Q : unit -> st -> Prop) : has s a va -> live s d -> (off + k <= used va)%nat -> (k <= len s d)%nat ->
  (forall s', becomes s d (mkobj (o_sg (ob s d)) k (firstn k (skipn off (dg va)) ++ skipn k (dat s d))) s' -> Q tt s') -> wp (take d a off k) e s Q.
Proof.
  intros H L O K J. destruct (has_elim _ _ _ H) as (La & U & _ & E & N). apply wp_bind. apply wp_get; auto. apply wp_bind. apply wp_get; auto. unfold len, dat in K, N.
  rewrite (proj2 (Nat.leb_le _ _)) by lia. rewrite (proj2 (Nat.leb_le _ _)) by lia. cbn [andb]. apply wp_set. apply J.
  replace (firstn k (skipn off (dg va))) with (firstn k (skipn off (o_da (ob s a)))); [apply becomes_put|].
  rewrite <- E, skipn_firstn_comm, firstn_firstn. f_equal. lia.
Qed.

(** * Reduction modulo a power of two *)
Lemma adj_after e r b s s1 s2 g u d v : becomes s1 r (mkobj g u d) s2 -> (u <= length d)%nat ->
  (forall x, x <> r -> mem s1 x = mem s x) -> (tick s <= tick s1)%nat -> (len s r <= length d)%nat -> v = mkmpi g (adjust (firstn u d)) ->
  wp (call madjust r; ret 0) e s2 (leaf e r b v s).
Proof.
  intros K U A T N ->. apply wp_bind. apply madjust_ok; [eapply becomes_live; eauto|unfold len, dat; rewrite (becomes_ob _ _ _ _ K); auto|].
  intros s3 B3. apply wp_ret. unfold dat in B3. rewrite (becomes_ob _ _ _ _ K) in B3. cbn [o_sg o_us o_da] in B3. destruct (adj_adjust d u U) as [E1 E2].
  pose proof (becomes_trans _ _ _ _ _ _ K B3) as BB. split; [intros x Hx; rewrite (proj1 (proj2 BB)), A; auto|]. split; [destruct BB as (_ & _ & ->); auto|].
  left. split; auto. split; [eapply has_intro; [apply BB|lia|rewrite E1; reflexivity]|]. unfold len at 2, dat. rewrite (becomes_ob _ _ _ _ BB). auto.
Qed.
Lemma mod_2e_ok e r a x v s : has s a v -> live s r -> 0 <= x -> wp (mod_2e_m r a x) e s (leaf e r true (mod_2e v x) s).
Proof.
  intros H Lr Hx. unfold mod_2e_m, mod_2e. destruct (x =? 0) eqn:Ex; [apply zero_leaf; auto|].
  apply wp_check. eapply wp_mono; [apply copy_ok; eauto|]. intros rc s1 (A & T & [(-> & V & LL)|(-> & S1 & M)]); cbn [Z.eqb]; [|split; auto].
  assert (H1 : has s1 a v) by (destruct (Nat.eq_dec a r) as [->|N]; [auto|eapply has_same; [apply A; auto|auto]]).
  destruct (has_elim _ _ _ H1) as (La & Ua & _). apply wp_bind. apply wp_get; auto. rewrite Ua.
  destruct (Z.leb_spec (64 * Z.of_nat (used v)) x) as [Hl|Hl]; [apply wp_ret; split; auto|].
  set (m := Z.to_nat (x / 64)). set (mk := Z.shiftl 1 (x mod 64) - 1). assert (Hm : (m < used v)%nat) by (unfold m; assert (x / 64 < Z.of_nat (used v)) by (apply Z.div_lt_upper_bound; lia); assert (0 <= x / 64) by (apply Z.div_pos; lia); lia).
  destruct (has_elim _ _ _ V) as (Lr1 & Ur & Gr & Er & Nr). cbv zeta. apply wp_bind. apply wp_get; auto. rewrite Ur.
  set (y := if x mod 64 =? 0 then m else S m). assert (Hy : (m <= y <= used v)%nat) by (unfold y; destruct (x mod 64 =? 0); lia).
  apply wp_bind. eapply wp_mono; [apply fill_ok; [auto|lia]|]. intros t s2 K2. cbv beta in K2. unfold over in K2. replace (y + (used v - y))%nat with (used v) in K2 by lia. unfold len in *.
  set (d2 := firstn y (dat s1 r) ++ repeat 0 (used v - y) ++ skipn (used v) (dat s1 r)) in *.
  assert (L2 : length d2 = length (dat s1 r)) by (unfold d2; rewrite !app_length, firstn_length_le, repeat_length, skipn_length by lia; lia).
  pose proof (chg_dat _ _ _ _ K2) as D2. pose proof (chg_live _ _ _ _ r K2 Lr1) as Lr2.
  apply wp_bind. apply wp_rd; [auto|unfold len; rewrite D2; lia|]. rewrite D2. apply wp_bind. apply wp_wr; [auto|unfold len; rewrite D2; lia|].
  pose proof (chg_trans _ _ _ _ _ _ K2 (wput_chg s2 r m (Z.land (nth m d2 0) mk))) as K3. rewrite D2 in K3. unfold chg in K3. rewrite Ur, Gr in K3.
  eapply adj_after; [exact K3|rewrite upd_length; lia|exact A|auto|rewrite upd_length; unfold len; lia|]. f_equal. f_equal.
  assert (F1 : firstn m d2 = firstn m (dg v)).
  { unfold d2. rewrite firstn_app, firstn_firstn, firstn_length_le by lia. replace (m - y)%nat with 0%nat by lia. cbn [firstn]. rewrite app_nil_r. replace (Nat.min m y) with m by lia.
    rewrite <- Er, firstn_firstn. f_equal. lia. }
  assert (F2 : Z.land (nth m d2 0) mk = Z.land (nth m (dg v) 0) mk).
  { unfold y in d2. destruct (x mod 64 =? 0) eqn:E0.
    - replace mk with 0 by (unfold mk; replace (x mod 64) with 0 by lia; reflexivity). rewrite !Z.land_0_r. reflexivity.
    - f_equal. unfold d2. rewrite app_nth1 by (rewrite firstn_length_le; lia). rewrite <- (has_nth _ _ _ m V Hm). apply nth_firstn_lt. lia. }
  assert (F3 : firstn (used v - S m) (skipn (S m) d2) = repeat 0 (used v - m - 1)).
  { unfold d2, y. destruct (x mod 64 =? 0).
    - replace (S m) with (m + 1)%nat at 2 by lia. rewrite <- skipn_skipn. rewrite (skipn_exact (firstn m (dat s1 r))) by (rewrite firstn_length_le; lia).
      replace (used v - m)%nat with (S (used v - m - 1)) at 1 by lia. cbn [repeat app skipn]. rewrite firstn_exact; auto. rewrite repeat_length. lia.
    - rewrite skipn_exact by (rewrite firstn_length_le; lia). rewrite firstn_exact; [f_equal; lia|]. rewrite repeat_length. auto. }
  rewrite upd_split by lia. rewrite F1, F2. rewrite firstn_app. rewrite firstn_length_le by (unfold used in *; lia).
  rewrite (firstn_all2 (n := used v) (firstn m (dg v))) by (rewrite firstn_length_le; unfold used in *; lia). f_equal.
  replace (used v - m)%nat with (S (used v - S m)) by lia. cbn [firstn]. f_equal. rewrite F3. f_equal. lia.
Qed.

(** * Division by three *)
Definition dstep (d w : Z) : option (Z * Z) :=
  let w := Z.lor (Z.shiftl w 64) d in
  if 3 <=? w then
    let t := Z.shiftr (w * (B / 3)) 64 in
    match div3_fix 4 t (w - (t + t + t)) with None => None | Some (t, w) => Some (t mod B, w) end
  else Some (0, w).
Fixpoint div3_in (l : list Z) (w : Z) : option (list Z * Z) :=
  match l with
  | [] => Some ([], w)
  | d :: l' => match div3_in l' w with
               | None => None
               | Some (q, w) => match dstep d w with None => None | Some (t, w) => Some (t :: q, w) end
               end
  end.
Lemma div3_in_0 l : div3_in l 0 = div3_loop l.
Proof.
  induction l as [|d l IH]; cbn [div3_in div3_loop]; auto. rewrite IH. destruct (div3_loop l) as [[q w]|]; auto. unfold dstep.
  destruct (3 <=? Z.lor (Z.shiftl w 64) d); auto. destruct (div3_fix 4 _ _) as [[t w']|]; auto.
Qed.
Lemma div3_in_snoc l x w : div3_in (l ++ [x]) w =
  match dstep x w with None => None | Some (t, w) => match div3_in l w with None => None | Some (q, w) => Some (q ++ [t], w) end end.
Proof.
  induction l as [|d l IH]; cbn [app div3_in]; [destruct (dstep x w) as [[t w']|]; reflexivity|]. rewrite IH. destruct (dstep x w) as [[t w']|]; auto.
  destruct (div3_in l w') as [[q w2]|]; auto. destruct (dstep d w2) as [[t2 w3]|]; auto.
Qed.
Lemma div3_in_len l : forall w q w', div3_in l w = Some (q, w') -> length q = length l.
Proof.
  induction l as [|d l IH]; cbn [div3_in]; intros w q w' H; [injection H as <- _; reflexivity|].
  destruct (div3_in l w) as [[q0 w0]|] eqn:E; [|discriminate]. destruct (dstep d w0) as [[t w2]|]; [|discriminate]. injection H as <- _. cbn. f_equal. eauto.
Qed.
Lemma div3_loop_ok e q a : q <> a -> forall k w s Q w', live s q -> live s a -> (k <= len s q)%nat -> (k <= len s a)%nat ->
  div3_in (firstn k (dat s a)) w = Some (Q, w') -> wp (div3_loop_m q a k w) e s (fun _ s' => chg s q (Q ++ skipn k (dat s q)) s').
Proof.
  intro N. induction k; intros w s Q w' Lq La Hq Ha F; cbn [div3_loop_m].
  - cbn in F. injection F as <- <-. apply wp_ret. apply chg_refl; auto.
  - unfold len in *. rewrite (firstn_S_nth _ 0 k) in F by lia. rewrite div3_in_snoc in F. apply wp_bind. apply wp_rd; [auto|unfold len; lia|]. cbv zeta.
    unfold dstep in F. set (x := nth k (dat s a) 0) in *.
    assert (J : forall t w1, match div3_in (firstn k (dat s a)) w1 with None => None | Some (q, w) => Some (q ++ [t], w) end = Some (Q, w') ->
      wp (call wr q k t; div3_loop_m q a k w1) e s (fun _ s' => chg s q (Q ++ skipn (S k) (dat s q)) s')).
    { intros t w1 F1. destruct (div3_in (firstn k (dat s a)) w1) as [[Q1 w2]|] eqn:E; [|discriminate]. injection F1 as <- <-.
      apply wp_bind. apply wp_wr; [auto|unfold len; lia|]. eapply wp_mono.
      - eapply IHk with (w := w1) (Q := Q1) (w' := w2); try (apply live_wput; auto); fold (len (wput s q k t) q) (len (wput s q k t) a); rewrite ?len_wput; unfold len; try lia.
        rewrite (chg_dat_o _ _ _ _ a (wput_chg s q k t)) by auto. exact E.
      - intros u s' K. cbv beta in K. eapply chg_trans; [apply wput_chg|]. eapply chg_ext; [exact K|]. rewrite (chg_dat _ _ _ _ (wput_chg s q k t)).
        rewrite upd_split by lia. rewrite skipn_app, firstn_length_le by lia. rewrite Nat.sub_diag. rewrite skipn_all2 by (rewrite firstn_length; lia).
        cbn [skipn app]. rewrite <- app_assoc. reflexivity. }
    destruct (3 <=? Z.lor (Z.shiftl w 64) x).
    + destruct (div3_fix 4 _ _) as [[t w1]|]; [|discriminate]. apply J. exact F.
    + apply J. exact F.
Qed.
Lemma div3_ok e n a v v' s : calm n s -> (a < n)%nat -> has s a v -> div3 v = Ok v' -> wp (div3_m n a) e s (after e n a true v' s).
Proof.
  intros C R H F. unfold div3 in F. destruct (div3_loop (dg v)) as [[Q w']|] eqn:E; [|discriminate]. injection F as <-. rewrite <- div3_in_0 in E.
  destruct (has_elim _ _ _ H) as (La & U & G & Ed & N). apply wp_bind. apply wp_get; auto. rewrite U, G.
  apply wp_check. eapply wp_mono; [apply init_size_ok|]. intros rc s1 (A1 & A2 & [(-> & (d & M & Ld))|(-> & S1 & M)]); cbn [Z.eqb].
  - assert (L1 : live s1 n) by (eapply mem_live; eauto). apply wp_shape; [auto|]. intros s2 B2. unfold dat in B2. rewrite (mem_ob _ _ _ M) in B2. cbn [o_da] in B2.
    assert (Ma : mem s2 a = mem s a) by (rewrite (proj1 (proj2 B2)), A1 by lia; auto). assert (Da : dat s2 a = dat s a) by (unfold dat, ob; rewrite Ma; auto).
    assert (Dn : dat s2 n = d) by (unfold dat; rewrite (becomes_ob _ _ _ _ B2); reflexivity).
    apply wp_bind. eapply wp_mono; [eapply div3_loop_ok with (Q := Q) (w' := w'); [lia|eapply becomes_live; eauto|unfold live; rewrite Ma; auto|unfold len; rewrite Dn; lia|unfold len in *; rewrite Da; lia|rewrite Da, Ed; exact E]|].
    intros t s3 K3. cbv beta in K3. rewrite Dn in K3. rewrite skipn_all2 in K3 by lia. rewrite app_nil_r in K3. pose proof (div3_in_len _ _ _ _ E) as LQ. fold (used v) in LQ.
    unfold chg in K3. rewrite (becomes_ob _ _ _ _ B2) in K3. cbn [o_sg o_us] in K3. pose proof (becomes_trans _ _ _ _ _ _ B2 K3) as B3.
    apply wp_bind. apply madjust_ok; [eapply becomes_live; eauto|unfold len, dat; rewrite (becomes_ob _ _ _ _ B3); cbn; lia|]. intros s4 B4.
    unfold dat in B4. rewrite (becomes_ob _ _ _ _ B3) in B4. cbn [o_sg o_us o_da] in B4. pose proof (becomes_trans _ _ _ _ _ _ B3 B4) as BB.
    assert (Ma4 : mem s4 a = mem s a) by (rewrite (proj1 (proj2 BB)), A1 by lia; auto).
    apply wp_bind. apply swap_ok; [eapply becomes_live; eauto|unfold live; rewrite Ma4; auto|]. intros s5 W1 W2 W3 W4.
    apply wp_bind. apply clear_ok; [unfold live; rewrite W1, Ma4; auto|]. intros s6 B6. apply wp_ret.
    destruct (adj_adjust Q (used v) ltac:(lia)) as [E1 E2]. rewrite (firstn_all2 (n := used v) Q) in E1 by lia.
    split; [|split; [split|]].
    + intros x Hx. destruct (Nat.eq_dec x n) as [->|Nx]; [right; apply B6|]. rewrite (proj1 (proj2 B6)), W3, (proj1 (proj2 BB)), A1 by lia. apply C. auto.
    + intros x Hx Nx. rewrite (proj1 (proj2 B6)), W3, (proj1 (proj2 BB)), A1 by lia. auto.
    + destruct B6 as (_ & _ & ->). rewrite W4. destruct BB as (_ & _ & ->). auto.
    + left. split; auto. eapply has_intro; [rewrite (proj1 (proj2 B6)), W2 by lia; apply BB|lia|]. rewrite E1. reflexivity.
  - split; [|split; [split; [intros x Hx _; apply A1; lia|auto]|]].
    + intros x Hx. destruct (Nat.eq_dec x n) as [->|Nx]; [left; auto|rewrite A1 by auto; apply C; auto].
    + right. split; auto. split; auto. apply A1. lia.
Qed.

(** * Signs *)
Lemma mul_gen_ok Mm Mf str : mul_ok Mm Mf str -> mul_ok (mul_gen_m Mm) (mul_gen Mf) str.
Proof.
  intros HM e n r a b va vb w v s C R Ra Rb Ha Hb Hr F. unfold mul_gen in F. destruct (Mf _ va vb) as [v0| | |] eqn:E; try discriminate. cbn in F. injection F as <-.
  destruct (has_elim _ _ _ Ha) as (La & _ & Ga & _). destruct (has_elim _ _ _ Hb) as (Lb & _ & Gb & _).
  apply wp_bind. apply wp_get; auto. apply wp_bind. apply wp_get; auto. rewrite Ga, Gb. cbv zeta.
  apply wp_check. eapply wp_mono; [eapply HM; eauto|]. intros rc s1 (A1 & (A2 & A3) & [(-> & V)|(-> & S1 & M)]); cbn [Z.eqb].
  - apply wp_bind. eapply wp_peek; eauto. destruct (is_zero v0); [apply wp_ret; split; auto; split; [split; auto|auto]|].
    apply wp_bind. apply wp_set_sg; [eapply has_live; eauto|]. apply wp_ret. destruct (has_elim _ _ _ V) as (_ & V2 & _ & V4 & V5).
    split; [intros x Hx; rewrite put_other by lia; apply A1; auto|]. split; [split; [intros x Hx Nx; rewrite put_other by auto; auto|exact A3]|].
    left. split; auto. eapply has_intro; [apply put_same|rewrite V2; exact V5|]. unfold set_sign. rewrite V2, V4. reflexivity.
  - split; auto. split; [split; auto|]. right. auto.
Qed.
