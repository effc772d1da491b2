(** Memory-level division: the loops of src/mpi/mpi_div_abs.c. *)
From Verif Require Import Base Lists MpiModel MpiSpec MpiDigits MpiMulModel MpiCanon MpiDivModel MemModel MemMulModel MemDivModel MemSpec Mem MemOps MemShift MemLeaf MemMul MemRec MemToom MpiDiv MemDivA.
Ltac Zify.zify_post_hook ::= idtac.

Lemma shld_neg v k : neg (shld v k) = neg v.
Proof. unfold shld. destruct (_ || _)%bool; reflexivity. Qed.
Lemma shld_used v k : is_zero v = false -> used (shld v k) = (used v + k)%nat.
Proof.
  intro Z. unfold shld. rewrite Z, Bool.orb_false_r. destruct (Nat.eqb_spec k 0) as [->|N]; [lia|].
  unfold used. cbn [dg]. rewrite app_length, repeat_length. lia.
Qed.
Lemma shrd_shld v k : is_zero v = false -> shrd (shld v k) k = v.
Proof.
  intro Z. unfold shrd. rewrite !is_zero_used, shld_used by auto. rewrite is_zero_used in Z. apply Nat.eqb_neq in Z.
  rewrite (proj2 (Nat.eqb_neq (used v + k) 0)) by lia. rewrite Bool.orb_false_r, (proj2 (Nat.leb_gt _ _)) by lia. rewrite shld_neg.
  unfold shld. destruct (Nat.eqb_spec k 0) as [->|N]; [reflexivity|]. rewrite is_zero_used, (proj2 (Nat.eqb_neq (used v) 0)) by lia. cbn [orb dg].
  rewrite skipn_app, repeat_length, Nat.sub_diag. rewrite skipn_all2 by (rewrite repeat_length; lia). cbn. destruct v; reflexivity.
Qed.

Section Loops.
Variables (n nn : nat) (e : env).
Notation DD := (D n nn).

Lemma refine_m_ok i t X Y : (t < i <= nn)%nat -> (i <= used X)%nat -> (t < used Y)%nat -> forall fuel q q' dq T1 T2 s,
  DD i dq T1 T2 X Y s -> (i - t - 1 < length dq)%nat -> nth (i - t - 1) dq 0 = q ->
  div_refine fuel (nth t (dg Y) 0) (if Nat.eqb t 0 then 0 else nth (t - 1) (dg Y) 0) (nth i (dg X) 0)
    (if Nat.eqb i 0 then 0 else nth (i - 1) (dg X) 0) (if (i <=? 1)%nat then 0 else nth (i - 2) (dg X) 0) q = Ok q' ->
  wp (div_refine_m fuel n i t) e s (Out e n s (fun s' => exists T1' T2', o_sg T1' = false /\ DD i (upd dq (i - t - 1) q') T1' T2' X Y s')).
Proof.
  intros Hi Hx Hy. set (k := (i - t - 1)%nat). induction fuel as [|f IH]; intros q q' dq T1 T2 s HD K Hq F; cbn [div_refine] in F; [discriminate|].
  cbn [div_refine_m]. fold k.
  apply out_step. eapply rd_q; eauto. split; [apply fr_refl|]. rewrite Hq.
  apply out_step. eapply wr_q; eauto. intros s1 D1 F1. split; [exact F1|]. clear HD.
  set (qv := (q - 1) mod B) in *. set (dq1 := upd dq k qv) in *.
  assert (K1 : (k < length dq1)%nat) by (unfold dq1; rewrite upd_length; auto).
  destruct (mul_dig false _ qv) as [t1| | |] eqn:FM in F; try discriminate. cbn [bind] in F.
  set (y0 := if Nat.eqb t 0 then 0 else nth (t - 1) (dg Y) 0) in *.
  apply out_step. eapply zero_at; [apply D1|]. intros s2 B2.
  pose proof D1 as (_ & _ & _ & _ & (W1 & W2) & _). destruct (o_da T1) as [|d0 [|d1 dr]] eqn:ET; [cbn in W2; lia|cbn in W2; lia|].
  destruct (D_t1 _ _ _ _ _ _ _ _ _ _ _ D1 B2) as (D2 & F2); [cbn; lia|cbn; lia|]. split; [exact F2|]. clear B2 D1.
  apply out_step. assert (RY : wp (if Nat.eqb t 0 then ret 0 else rd (n + 4) (t - 1)) e s2 (fun a s => a = y0 /\ s = s2)).
  { unfold y0. destruct (Nat.eqb_spec t 0); [apply wp_ret; auto|]. eapply rd_y; [exact D2|lia|auto]. }
  eapply wp_mono; [exact RY|]. intros y s2' (-> & ->). split; [apply fr_refl|]. clear RY.
  apply out_step. eapply wr_at; [apply D2|cbn; lia|]. cbn [o_sg o_us o_da upd]. intros s3 B3.
  destruct (D_t1 _ _ _ _ _ _ _ _ _ _ _ D2 B3) as (D3 & F3); [cbn; lia|cbn; lia|]. split; [exact F3|]. clear B3 D2.
  apply out_step. eapply rd_y; [exact D3|lia|]. split; [apply fr_refl|].
  apply out_step. eapply wr_at; [apply D3|cbn; lia|]. cbn [o_sg o_us o_da upd]. intros s4 B4.
  destruct (D_t1 _ _ _ _ _ _ _ _ _ _ _ D3 B4) as (D4 & F4); [cbn; lia|cbn; lia|]. split; [exact F4|]. clear B4 D3.
  apply out_step. eapply set_us_at; [apply D4|]. cbn [o_sg o_us o_da]. intros s5 B5.
  destruct (D_t1 _ _ _ _ _ _ _ _ _ _ _ D4 B5) as (D5 & F5); [cbn; lia|cbn; lia|]. split; [exact F5|]. clear B5 D4.
  apply out_step. eapply rd_q; [exact D5|exact K1|]. split; [apply fr_refl|]. unfold dq1 at 1. rewrite nth_upd_same by auto.
  assert (HT : has s5 (n + 1) (mkmpi false [y0; nth t (dg Y) 0])) by (eapply has_intro; [apply D5|cbn; lia|reflexivity]).
  eapply out_chk.
  { eapply op_t1; [exact D5|]. eapply wp_mono; [eapply (mul_dig_room e (n + 5) (n + 1) (n + 1)); [apply D5|lia|lia|exact HT|exact HT|reflexivity|rewrite Nat.eqb_refl; exact FM]|].
    cbn [used dg length]. intros rc s6 (A & L). split; [exact A|]. intro E. specialize (L E). lia. }
  intros s6 (T & VT & D6). clear D5 HT.
  apply out_step. set (x0 := if (i <=? 1)%nat then 0 else nth (i - 2) (dg X) 0) in *. set (x1 := if Nat.eqb i 0 then 0 else nth (i - 1) (dg X) 0) in *.
  assert (RX : wp (if (i <=? 1)%nat then ret 0 else rd (n + 3) (i - 2)) e s6 (fun a s => a = x0 /\ s = s6)).
  { unfold x0. destruct (Nat.leb_spec i 1); [apply wp_ret; auto|]. eapply rd_x; [exact D6|lia|lia|lia|auto]. }
  eapply wp_mono; [exact RX|]. intros x s6' (-> & ->). split; [apply fr_refl|]. clear RX.
  pose proof D6 as (_ & _ & _ & _ & _ & (W3 & W4 & W5) & _). destruct (o_da T2) as [|c0 [|c1 [|c2 [|]]]] eqn:ET2; try (cbn in W4; lia).
  apply out_step. eapply wr_at; [apply D6|rewrite ET2; cbn; lia|]. rewrite ET2. cbn [upd]. intros s7 B7.
  destruct (D_t2 _ _ _ _ _ _ _ _ _ _ _ D6 B7) as (D7 & F7); [cbn; auto|]. split; [exact F7|]. clear B7 D6.
  apply out_step. assert (RX : wp (if Nat.eqb i 0 then ret 0 else rd (n + 3) (i - 1)) e s7 (fun a s => a = x1 /\ s = s7)).
  { unfold x1. destruct (Nat.eqb_spec i 0); [apply wp_ret; auto|]. eapply rd_x; [exact D7|lia|lia|lia|auto]. }
  eapply wp_mono; [exact RX|]. intros x s7' (-> & ->). split; [apply fr_refl|]. clear RX.
  apply out_step. eapply wr_at; [apply D7|cbn; lia|]. cbn [o_sg o_us o_da upd]. intros s8 B8.
  destruct (D_t2 _ _ _ _ _ _ _ _ _ _ _ D7 B8) as (D8 & F8); [cbn; auto|]. split; [exact F8|]. clear B8 D7.
  apply out_step. eapply rd_x; [exact D8|lia|lia|lia|]. split; [apply fr_refl|].
  apply out_step. eapply wr_at; [apply D8|cbn; lia|]. cbn [o_sg o_us o_da upd]. intros s9 B9.
  destruct (D_t2 _ _ _ _ _ _ _ _ _ _ _ D8 B9) as (D9 & F9); [cbn; auto|]. split; [exact F9|]. clear B9 D8.
  apply out_step. eapply set_us_at; [apply D9|]. cbn [o_sg o_us o_da]. intros s10 B10.
  destruct (D_t2 _ _ _ _ _ _ _ _ _ _ _ D9 B10) as (D10 & F10); [cbn; auto|]. split; [exact F10|]. clear B10 D9.
  apply out_step. eapply peek_at; [apply D10|apply D10|]. split; [apply fr_refl|].
  apply out_step. eapply peek_at; [apply D10|cbn; lia|]. split; [apply fr_refl|].
  rewrite VT. unfold view. cbn [o_sg o_us o_da firstn]. rewrite W5.
  destruct (cmp_abs t1 _ =? 1).
  - eapply wp_mono; [eapply (IH qv q'); [exact D10|exact K1|unfold dq1; rewrite nth_upd_same; auto|exact F]|]. intros rc s11. apply out_weak.
    intros s12 (A & A' & HA & H). exists A, A'. split; auto. unfold dq1 in H. rewrite upd_twice in H. exact H.
  - injection F as <-. apply out_ret. exists T. eexists. split; [change (neg (view T) = false); rewrite VT; eapply mul_dig_neg; [|exact FM]; reflexivity|exact D10].
Qed.

Lemma step_m_ok i t X Y q X' dq T1 T2 s : (t < i <= nn)%nat -> (i <= used X)%nat -> used Y = S t -> neg X = false -> neg Y = false -> nth t (dg Y) 0 <> 0 ->
  DD i dq T1 T2 X Y s -> (i - t - 1 < length dq)%nat -> div_step i t X Y = Ok (q, X') ->
  wp (div_step_m n i t) e s (Out e n s (fun s' => exists T1' T2', DD (i - 1) (upd dq (i - t - 1) q) T1' T2' X' Y s')).
Proof.
  intros Hi Hx Hy NX NY NZ HD K F. unfold div_step_m, div_step in *. cbv zeta in *. set (k := (i - t - 1)%nat) in *.
  set (q0 := if nth i (dg X) 0 =? nth t (dg Y) 0 then B - 1 else if B - 1 <? Z.lor (Z.shiftl (nth i (dg X) 0) 64) (nth (i - 1) (dg X) 0) / nth t (dg Y) 0 then B - 1 else Z.lor (Z.shiftl (nth i (dg X) 0) 64) (nth (i - 1) (dg X) 0) / nth t (dg Y) 0) in *.
  assert (ZY : is_zero Y = false) by (rewrite is_zero_used, Hy; auto).
  apply out_step. eapply rd_x; [exact HD|lia|lia|lia|]. split; [apply fr_refl|].
  apply out_step. eapply rd_y; [exact HD|lia|]. split; [apply fr_refl|].
  apply out_step. eapply (wp_mono _ e s (fun _ s1 => DD i (upd dq k q0) T1 T2 X Y s1 /\ fr n s s1)).
  { unfold q0. destruct (nth i (dg X) 0 =? nth t (dg Y) 0).
    - eapply wr_q; [exact HD|exact K|]. auto.
    - apply wp_bind. eapply rd_x; [exact HD|lia|lia|lia|]. rewrite (proj2 (Z.eqb_neq _ _) NZ). eapply wr_q; [exact HD|exact K|]. auto. }
  intros _ s1 (D1 & F1). split; [exact F1|]. clear HD F1.
  assert (K1 : forall v, (k < length (upd dq k v))%nat) by (intro v; rewrite upd_length; auto).
  apply out_step. eapply rd_q; [exact D1|apply K1|]. split; [apply fr_refl|]. rewrite nth_upd_same by auto.
  apply out_step. eapply wr_q; [exact D1|apply K1|]. intros s2 D2 F2. split; [exact F2|]. clear D1 F2. rewrite upd_twice in D2.
  destruct (div_refine _ _ _ _ _ _ _) as [qr| | |] eqn:FR in F; try discriminate. cbn [bind] in F.
  destruct (mul_dig false Y qr) as [t1| | |] eqn:FM in F; try discriminate. cbn [bind] in F.
  destruct (sub X _) as [x1| | |] eqn:FS in F; try discriminate. cbn [bind] in F.
  eapply out_chk.
  { eapply (refine_m_ok i t X Y); [lia|lia|lia|exact D2|apply K1|fold k; rewrite nth_upd_same by auto; reflexivity|exact FR]. }
  intros s3 (U1 & U2 & SG & D3). clear D2. fold k in D3. rewrite upd_twice in D3.
  apply out_step. eapply rd_q; [exact D3|apply K1|]. split; [apply fr_refl|]. rewrite nth_upd_same by auto.
  pose proof (mul_dig_neg _ _ _ NY FM) as N1.
  eapply out_chk.
  { eapply op_t1; [exact D3|]. eapply wp_mono; [eapply (mul_dig_room e (n + 5) (n + 1) (n + 4) qr Y (view U1) t1); [apply D3|lia|lia|apply D3| |exact ZY|]|].
    - destruct D3 as (_ & _ & M & _ & (W & _) & _). exists U1. auto.
    - change (neg (view U1)) with (o_sg U1). rewrite SG. destruct (Nat.eqb (n + 1) (n + 4)); exact FM.
    - intros rc s4 (A & L). split; [exact A|]. intro E. specialize (L E). lia. }
  intros s4 (T & VT & D4). clear D3.
  assert (HT : has s4 (n + 1) t1) by (destruct D4 as (_ & _ & M & _ & (W & _) & _); exists T; auto).
  eapply out_chk.
  { eapply op_t1l; [exact D4|]. eapply wp_mono; [eapply (shld_m_ok e (n + 1) k t1 s4 HT)|]. intros rc s5 (L & _). exact L. }
  intros s5 (T' & VT' & D5). clear D4 HT.
  assert (HT : has s5 (n + 1) (shld t1 k)) by (destruct D5 as (_ & _ & M & _ & (W & _) & _); exists T'; auto).
  assert (HX : has s5 (n + 3) X) by apply D5.
  eapply out_chk.
  { eapply (op_x n nn i (i - 1)%nat); [exact D5|]. eapply wp_mono; [eapply (sub_m_ok e (n + 3) (n + 3) (n + 1) X (shld t1 k) x1 s5 HX HT (has_live _ _ _ HX) FS)|].
    intros rc s6 (L & W). split; [exact L|]. intro E. eapply washed_le; [|apply W; [exact E|rewrite shld_neg; congruence]]. lia. }
  intros s6 D6. clear D5 HX HT. assert (HX : has s6 (n + 3) x1) by apply D6.
  apply out_step. apply wp_get; [eapply has_live; eauto|]. split; [apply fr_refl|].
  destruct (has_elim _ _ _ HX) as (_ & _ & -> & _). destruct (neg x1) eqn:N2.
  2:{ injection F as <- <-. apply out_ret. eauto. }
  destruct (add x1 _) as [x2| | |] eqn:FA in F; try discriminate. cbn [bind] in F. injection F as <- <-.
  assert (HY : has s6 (n + 4) Y) by apply D6.
  eapply out_chk.
  { eapply op_t1l; [exact D6|]. apply copy_ok; [exact HY|]. eapply D_live; [exact D6|lia]. }
  intros s7 (T7 & V7 & D7). clear D6 HX HY. assert (HT : has s7 (n + 1) Y) by (destruct D7 as (_ & _ & M & _ & (W & _) & _); exists T7; auto).
  eapply out_chk.
  { eapply op_t1l; [exact D7|]. eapply wp_mono; [eapply (shld_m_ok e (n + 1) k Y s7 HT)|]. intros rc s8 (L & _). exact L. }
  intros s8 (T8 & V8 & D8). clear D7 HT.
  assert (HT : has s8 (n + 1) (shld Y k)) by (destruct D8 as (_ & _ & M & _ & (W & _) & _); exists T8; auto).
  assert (HX : has s8 (n + 3) x1) by apply D8.
  eapply out_chk.
  { eapply (op_x n nn (i - 1) (i - 1)%nat); [exact D8|]. eapply wp_mono; [eapply (add_m_ok e (n + 3) (n + 3) (n + 1) x1 (shld Y k) x2 s8 HX HT (has_live _ _ _ HX) FA)|].
    intros rc s9 (L & W). split; [exact L|]. intro E. eapply washed_le; [|apply W; [exact E|rewrite shld_neg; congruence]]. rewrite shld_used, Hy by auto. lia. }
  intros s9 D9. apply out_step. eapply rd_q; [exact D9|apply K1|]. split; [apply fr_refl|]. rewrite nth_upd_same by auto.
  apply out_step. eapply wr_q; [exact D9|apply K1|]. intros s10 D10 F10. split; [exact F10|]. rewrite upd_twice in D10. apply out_ret. eauto.
Qed.

Lemma upd_mid k q acc z : upd (repeat 0 (S k) ++ acc ++ z) k q = repeat 0 k ++ (q :: acc) ++ z.
Proof.
  replace (repeat 0 (S k)) with (repeat 0 k ++ [0]) by (rewrite <- repeat_cons; reflexivity). rewrite <- app_assoc. cbn [app].
  pose proof (upd_app (repeat 0 k) 0 (acc ++ z) q) as H. rewrite repeat_length in H. exact H.
Qed.
Lemma loop_m_ok t Y : wf Y -> neg Y = false -> used Y = S t -> B <= 4 * last (dg Y) 0 -> forall k X acc z q X' T1 T2 s,
  wf X -> neg X = false -> val (dg X) < val (dg Y) * B ^ Z.of_nat k -> (t + k <= nn)%nat ->
  DD (t + k) (repeat 0 k ++ acc ++ z) T1 T2 X Y s -> div_loop k t X Y acc = Ok (q, X') ->
  wp (div_loop_m k n t) e s (Out e n s (fun s' => exists T1' T2', DD t (q ++ z) T1' T2' X' Y s')).
Proof.
  intros Wy Ny Uy Hyt. pose proof B_pos as HB.
  assert (NZ : nth t (dg Y) 0 <> 0) by (rewrite <- (last_nth (dg Y) t) by exact Uy; lia).
  induction k as [|k IH]; intros X acc z q X' T1 T2 s Wx Nx Hx Hk HD F; cbn [div_loop div_loop_m] in *.
  - injection F as <- <-. apply out_ret. exists T1, T2. replace t with (t + 0)%nat by lia. exact HD.
  - assert (HX : has s (n + 3) X) by apply HD. apply out_step. apply wp_get; [eapply has_live; eauto|]. split; [apply fr_refl|].
    destruct (has_elim _ _ _ HX) as (_ & -> & _). clear HX.
    assert (Py : B ^ Z.of_nat t <= val (dg Y)).
    { pose proof (wf_len_pow Y Wy) as H. rewrite Uy in H. replace (S t - 1)%nat with t in H by lia. apply H. intro E. unfold used in Uy. rewrite E in Uy. discriminate. }
    rewrite Nat2Z.inj_succ, Z.pow_succ_r in Hx by lia. pose proof (Bn_pos k) as PK.
    destruct (Nat.ltb_spec (used X) (t + S k)) as [L|L].
    + eapply (IH X (0 :: acc) z); try eassumption; [|lia|].
      * pose proof (val_lt _ (proj1 Wx)) as LX. fold (used X) in LX.
        assert (G : B ^ Z.of_nat (used X) <= B ^ Z.of_nat (t + k)) by (apply Z.pow_le_mono_r; lia).
        rewrite Nat2Z.inj_add, Z.pow_add_r in G by lia.
        assert (B ^ Z.of_nat t * B ^ Z.of_nat k <= val (dg Y) * B ^ Z.of_nat k) by (apply Z.mul_le_mono_nonneg_r; lia). lia.
      * replace (repeat 0 k ++ (0 :: acc) ++ z) with (repeat 0 (S k) ++ acc ++ z); [eapply D_down; [|exact HD]; lia|].
        replace (repeat 0 (S k)) with (repeat 0 k ++ [0]) by (rewrite <- repeat_cons; reflexivity). rewrite <- app_assoc. reflexivity.
    + destruct (div_step_ok (t + S k) t X Y) as (x1 & E & Wx1 & Nx1 & V1 & Bq); auto; try lia.
      { replace (t + S k - t)%nat with (S k) by lia. rewrite Nat2Z.inj_succ, Z.pow_succ_r by lia. auto. }
      rewrite E in F. cbn [bind] in F. assert (EK : (t + S k - t - 1)%nat = k) by (clear; lia). rewrite EK in *.
      set (y' := val (dg Y) * B ^ Z.of_nat k) in *. assert (Py' : 0 < y') by (apply Z.mul_pos_pos; [pose proof (Bn_pos t); lia|auto]).
      pose proof (Z.mod_pos_bound (val (dg X)) y' Py').
      eapply out_chk.
      { eapply (step_m_ok (t + S k) t X Y _ x1); [lia|lia|exact Uy|exact Nx|exact Ny|exact NZ|exact HD| |exact E]. rewrite app_length, repeat_length. lia. }
      intros s1 (U1 & U2 & D1). rewrite EK, upd_mid in D1.
      eapply (IH x1 _ z); try eassumption; [lia|lia|]. replace (t + k)%nat with (t + S k - 1)%nat by lia. exact D1.
Qed.

Lemma upd_back (l : list Z) i : (i < length l)%nat -> upd l i (nth i l 0) = l.
Proof. revert i. induction l as [|a l IH]; intros [|i] H; cbn in *; auto; try lia. f_equal. apply IH. lia. Qed.
Lemma top_m_ok d Y : canon Y -> 0 <= mval Y -> used Y = S nn -> forall f X q q' X' dq T1 T2 s,
  canon X -> 0 <= mval X -> DD nn dq T1 T2 X Y s -> (d < length dq)%nat -> nth d dq 0 = q -> div_top f X Y q = Ok (q', X') ->
  wp (div_top_m f n d) e s (Out e n s (DD nn (upd dq d q') T1 T2 X' Y)).
Proof.
  intros Cy Py Uy. destruct (canon_nonneg _ Cy Py) as [Ny _].
  induction f as [|f IH]; intros X q q' X' dq T1 T2 s Cx Px HD Hd Hq F; cbn [div_top div_top_m] in *.
  - assert (HX : has s (n + 3) X) by apply HD. assert (HY : has s (n + 4) Y) by apply HD.
    apply wp_bind. eapply wp_peek; eauto. apply wp_bind. eapply wp_peek; eauto. destruct (cmp X Y =? -1); [|discriminate].
    injection F as <- <-. apply out_ret. rewrite <- Hq, upd_back; auto.
  - assert (HX : has s (n + 3) X) by apply HD. assert (HY : has s (n + 4) Y) by apply HD.
    apply wp_bind. eapply wp_peek; eauto. apply wp_bind. eapply wp_peek; eauto. destruct (Z.eqb_spec (cmp X Y) (-1)) as [E|E].
    { injection F as <- <-. apply out_ret. rewrite <- Hq, upd_back; auto. }
    destruct (canon_nonneg _ Cx Px) as [Nx _].
    destruct (sub_spec X Y) as (x1 & ES & W1 & V1 & C1); [apply Cx|apply Cy|]. rewrite ES in F. cbn [bind] in F.
    assert (Cx1 : canon x1) by (split; auto; apply C1; exact (proj2 Cx)).
    assert (Px1 : 0 <= mval x1) by (rewrite cmp_spec in E by auto; lia).
    apply out_step. eapply rd_q; [exact HD|exact Hd|]. split; [apply fr_refl|]. rewrite Hq.
    apply out_step. eapply wr_q; [exact HD|exact Hd|]. intros s1 D1 F1. split; [exact F1|].
    assert (HX1 : has s1 (n + 3) X) by apply D1. assert (HY1 : has s1 (n + 4) Y) by apply D1.
    eapply out_chk.
    { eapply (op_x n nn nn nn); [exact D1|]. eapply wp_mono; [eapply (sub_m_ok e (n + 3) (n + 3) (n + 4) X Y x1 s1 HX1 HY1 (has_live _ _ _ HX1) ES)|].
      intros rc s2 (L & W). split; [exact L|]. intro Er. eapply washed_le; [|apply W; [exact Er|congruence]]. lia. }
    intros s2 D2. eapply wp_mono; [eapply (IH x1); [exact Cx1|exact Px1|exact D2|rewrite upd_length; exact Hd|rewrite nth_upd_same by auto; reflexivity|exact F]|].
    rewrite upd_twice. auto.
Qed.
End Loops.
