(** Memory-level division: src/mpi/mpi_div_abs.c as a whole. *)
From Verif Require Import Base Bits Lists MpiModel MpiSpec MpiDigits MpiMulModel MpiMul MpiMul2 MpiCanon MpiDivModel MemModel MemMulModel MemDivModel MemSpec Mem MemOps MemShift MemLeaf MemMul MemRec MemToom MpiDiv MemDivA MemDivB.
Ltac Zify.zify_post_hook ::= idtac.

(** * What the number-level routine computes on the way *)
Lemma div_abs_parts a b : wf a -> wf b -> is_zero b = false -> cmp_abs a b <? 0 = false ->
  let x := mkmpi false (dg a) in
  let y := mkmpi false (dg b) in
  let bits := count_bits y mod 64 in
  let norm := if bits <? 63 then 63 - bits else 0 in
  let X := shl x norm in let Y := shl y norm in
  let nn := (used X - 1)%nat in let t := (used Y - 1)%nat in
  0 <= norm /\ (1 <= used a)%nat /\ used X = S nn /\ used Y = S t /\ (t <= nn)%nat /\ (nn <= used a <= S nn)%nat /\ canon X /\ 0 <= mval X /\ canon (shld Y (nn - t)) /\ 0 <= mval (shld Y (nn - t)) /\
  wf Y /\ neg Y = false /\ B <= 4 * last (dg Y) 0 /\
  exists qt x1 q x', div_top 4 X (shld Y (nn - t)) 0 = Ok (qt, x1) /\ wf x1 /\ neg x1 = false /\ val (dg x1) < val (dg Y) * B ^ Z.of_nat (nn - t) /\
    div_loop (nn - t) t x1 Y [qt] = Ok (q, x') /\ neg x' = false /\ div_abs a b = Ok (mkmpi false (adjust q), mkmpi false (dg (shr x' norm))).
Proof.
  intros Wa Wb NZ CM. pose proof B_pos as HB.
  pose proof (val_nonneg _ (proj1 Wa)) as Pa. pose proof (val_nonneg _ (proj1 Wb)) as Pb.
  assert (DA : div_abs a b = div_abs a b) by reflexivity. unfold div_abs at 2 in DA. rewrite NZ, CM in DA. cbv zeta in DA.
  rewrite is_zero_val in NZ by auto. apply Z.eqb_neq in NZ. rewrite cmp_abs_spec in CM by auto. apply Z.ltb_ge in CM.
  intros x y bits norm. subst bits. cbv zeta. fold x y norm in DA.
  assert (Wx : wf x) by exact Wa. assert (Wy : wf y) by exact Wb.
  assert (NEy : dg y <> []) by (intro E; apply NZ; cbn [y dg] in E; rewrite E; reflexivity).
  destruct (norm_ok y Wy NEy) as (HN & WY & HY & NEY & NY & VY). fold norm in HN, WY, HY, NEY, NY, VY.
  assert (HN63 : norm <= 63) by (unfold norm; pose proof (Z.mod_pos_bound (count_bits y) 64 ltac:(lia)); destruct (_ <? _); lia).
  clearbody norm.
  assert (EX : (if norm =? 0 then x else shl x norm) = shl x norm)
    by (destruct (Z.eqb_spec norm 0) as [E0|]; [rewrite E0, shl_0|]; reflexivity).
  assert (EY : (if norm =? 0 then y else shl y norm) = shl y norm)
    by (destruct (Z.eqb_spec norm 0) as [E0|]; [rewrite E0, shl_0|]; reflexivity).
  rewrite EX, EY in DA. clear EX EY.
  destruct (shl_spec x norm Wx HN) as (WX & NX & VX).
  pose proof (pow2_pos norm HN) as P2.
  set (X := shl x norm) in *. set (Y := shl y norm) in *. cbn [x y dg] in VX, VY. cbn [x y neg] in NX, NY.
  assert (LE : val (dg b) <= val (dg a)) by lia.
  assert (LEXY : val (dg Y) <= val (dg X)) by (rewrite VX, VY; apply Z.mul_le_mono_nonneg_r; lia).
  assert (PY : 0 < val (dg Y)) by (rewrite VY; apply Z.mul_pos_pos; lia).
  assert (NEX : dg X <> []) by (intro E; rewrite E in LEXY; cbn [val] in LEXY; lia).
  assert (UX : (1 <= used X)%nat) by (unfold used; destruct (dg X); [contradiction|cbn; lia]).
  assert (UY : (1 <= used Y)%nat) by (unfold used; destruct (dg Y); [contradiction|cbn; lia]).
  assert (Ua : (1 <= used a)%nat) by (unfold used; destruct (dg a) eqn:Ea; [cbn [val] in LE; lia|cbn; lia]).
  assert (ULE : (used Y <= used X)%nat).
  { apply wf_len_le; auto. pose proof (val_lt _ (proj1 WX)). unfold used at 1. lia. }
  assert (UXa : (used X <= S (used a))%nat).
  { apply wf_len_le; auto. rewrite VX, Nat2Z.inj_succ, Z.pow_succ_r by lia. pose proof (val_lt _ (proj1 Wa)) as LA. fold (used a) in LA.
    assert (2 ^ norm <= B) by (rewrite B_pow2; apply Z.pow_le_mono_r; lia).
    assert (val (dg a) * 2 ^ norm <= val (dg a) * B) by (apply Z.mul_le_mono_nonneg_l; lia).
    assert (B * val (dg a) < B * B ^ Z.of_nat (used a)) by (apply Z.mul_lt_mono_pos_l; lia). lia. }
  set (n := (used X - 1)%nat) in *. set (t := (used Y - 1)%nat) in *.
  destruct (shld_mval Y (n - t) WY) as [WS VS].
  assert (MY : mval Y = val (dg Y)) by (unfold mval; rewrite NY; auto).
  assert (MX : mval X = val (dg X)) by (unfold mval; rewrite NX; auto).
  destruct (shld_spec Y (n - t) WY) as (_ & NS & _).
  assert (CS : canon (shld Y (n - t))) by (apply wf_canon; auto; rewrite NS; auto).
  assert (CX : canon X) by (apply wf_canon; auto).
  pose proof (Bn_pos (n - t)) as PW.
  rewrite MY in VS.
  assert (PS : 0 < mval (shld Y (n - t))) by (rewrite VS; apply Z.mul_pos_pos; auto).
  assert (HX4 : mval X < mval (shld Y (n - t)) * 4).
  { rewrite VS, MX. pose proof (val_lt _ (proj1 WX)) as LX. fold (used X) in LX.
    destruct (val_last (dg Y) NEY) as (lo & VL & Hlo). specialize (Hlo (proj1 WY)).
    fold (used Y) in *. fold t in VL, Hlo. 
    replace (used X) with (S n) in LX by lia. rewrite Nat2Z.inj_succ, Z.pow_succ_r in LX by lia.
    assert (EN : B ^ Z.of_nat n = B ^ Z.of_nat t * B ^ Z.of_nat (n - t)) by (rewrite <- Z.pow_add_r by lia; f_equal; lia).
    rewrite EN in LX. pose proof (Bn_pos t) as PT.
    assert (B * B ^ Z.of_nat t <= 4 * last (dg Y) 0 * B ^ Z.of_nat t) by (apply Z.mul_le_mono_nonneg_r; lia).
    assert (B * B ^ Z.of_nat t <= val (dg Y) * 4) by lia.
    assert (B * B ^ Z.of_nat t * B ^ Z.of_nat (n - t) <= val (dg Y) * 4 * B ^ Z.of_nat (n - t)) by (apply Z.mul_le_mono_nonneg_r; lia). lia. }
  destruct (div_top_ok _ CS PS 4 X 0 CX) as (x1 & ET & C1 & V1); try lia.
  { unfold B. lia. }
  rewrite Z.add_0_l in ET. rewrite ET in DA. cbn [bind] in DA.
  pose proof (Z.mod_pos_bound (mval X) _ PS) as MB.
  destruct (canon_nonneg x1 C1 ltac:(lia)) as [N1 E1].
  assert (Hqt : 0 <= mval X / mval (shld Y (n - t)) < B).
  { split; [apply Z.div_pos; [rewrite MX; apply val_nonneg, WX|lia]|]. apply Z.div_lt_upper_bound; [lia|]. unfold B. lia. }
  assert (LT1 : val (dg x1) < val (dg Y) * B ^ Z.of_nat (n - t)) by (rewrite E1, V1, <- VS; apply MB).
  destruct (div_loop_ok t Y WY NY ltac:(lia) HY (n - t) x1 [mval X / mval (shld Y (n - t))])
    as (q & x' & EL & Dq & Wx' & Nx' & V & LT); [apply C1|exact N1|apply digits_cons; auto|exact LT1|].
  rewrite EL in DA. cbn [bind] in DA.
  assert (QX : (used X = S n)%nat) by lia. assert (QY : (used Y = S t)%nat) by lia. assert (Qn : (n <= used a <= S n)%nat).
  { split; [lia|]. rewrite <- QX. apply wf_len_le; auto. pose proof (val_lt _ (proj1 WX)) as LX. fold (used X) in LX. rewrite VX in LX. assert (val (dg a) * 1 <= val (dg a) * 2 ^ norm) by (apply Z.mul_le_mono_nonneg_l; lia). lia. }
  assert (Qt : (t <= n)%nat) by lia.
  assert (Q0 : 0 <= mval X) by lia. assert (Q1 : 0 <= mval (shld Y (n - t))) by lia.
  repeat match goal with |- _ /\ _ => split; [assumption|] end.
  exists (mval X / mval (shld Y (n - t))), x1, q, x'. repeat split; auto; try apply C1.
Qed.

(** * Locals with their clean-up *)
Definition post (n k : nat) (R : Z -> st -> Prop) (rc : Z) (s' : st) : Prop :=
  calm (n + k) s' /\ (forall x, (n <= x < n + k)%nat -> live s' x) /\ R rc s'.
Definition stable (n : nat) (R : Z -> st -> Prop) : Prop :=
  forall rc s s', (forall x, (x < n)%nat -> mem s' x = mem s x) -> tick s' = tick s -> R rc s -> R rc s'.
Lemma scope e n k x R m s : x = (n + k)%nat -> stable n R -> wp m e s (post n (S k) R) -> wp (finally m (clear x)) e s (post n k R).
Proof.
  intros -> SR H. apply wp_finally. eapply wp_mono; [exact H|]. intros rc s1 (C & L & HR).
  apply clear_ok; [apply L; lia|]. intros s2 (B1 & B2 & B3). split; [|split].
  - intros y Hy. destruct (Nat.eq_dec y (n + k)) as [->|N]; [right; auto|]. rewrite B2 by auto. apply C. lia.
  - intros y Hy. unfold live. rewrite B2 by lia. apply L. lia.
  - eapply SR; [|exact B3|exact HR]. intros y Hy. apply B2. lia.
Qed.
Lemma init_copy_ok e d a v s : d <> a -> has s a v -> wp (init_copy d a) e s (fun rc s' => (forall y, y <> d -> mem s' y = mem s y) /\ (tick s <= tick s')%nat /\
  (rc = 0 /\ has s' d v \/ rc = -1 /\ starved e s s' /\ (mem s' d = None \/ mem s' d = Some void))).
Proof.
  intros N Ha. unfold init_copy. apply wp_check. eapply wp_mono; [apply init_ok|]. intros rc s1 (A & T & [(-> & H & _)|(-> & S & M)]); cbn [Z.eqb].
  2:{ split; auto. split; auto. }
  apply wp_bind. eapply wp_mono; [eapply (copy_ok e d a v s1); [eapply has_same; [apply A; auto|auto]|eapply has_live; eauto]|].
  intros rc s2 (A2 & T2 & [(-> & V & _)|(-> & S & M)]); cbn [Z.eqb].
  - apply wp_ret. split; [intros; rewrite A2, A; auto|]. split; [lia|]. auto.
  - apply wp_bind. apply clear_ok; [unfold live; rewrite M; eapply has_live; eauto|]. intros s3 (B1 & B2 & B3). apply wp_ret.
    split; [intros; rewrite B2, A2, A; auto|]. split; [lia|]. right. split; auto. split; [|auto]. eapply starved_mono; [| |exact S]; lia.
Qed.

(** * The outcome of division of magnitudes *)
Definition divided (e : env) (n : nat) (rq rr : option nat) (qv rv : mpi) (room : st -> Prop) (s : st) (rc : Z) (s' : st) : Prop :=
  (forall x, (x < n)%nat -> Some x <> rq -> Some x <> rr -> mem s' x = mem s x) /\ (tick s <= tick s')%nat /\
  (rc = 0 /\ holds s' rq qv /\ holds s' rr rv /\ room s' \/ rc = -1 /\ starved e s s' /\ forall x, (x < n)%nat -> mem s' x = mem s x).
Definition below (n : nat) (o : option nat) : Prop := forall x, o = Some x -> (x < n)%nat.
Definition roomy (rq rr : option nat) (k j : nat) (s : st) : Prop :=
  (forall x, rq = Some x -> (k <= len s x)%nat) /\ (forall x, rr = Some x -> (j <= len s x)%nat).
Lemma holds_same n o v s s' : below n o -> (forall x, (x < n)%nat -> mem s' x = mem s x) -> holds s o v -> holds s' o v.
Proof. intros L M. destruct o as [x|]; cbn; auto. intro H. eapply has_same; [apply M; apply L; auto|auto]. Qed.
Lemma divided_stable e n rq rr qv rv k j s : below n rq -> below n rr -> stable n (divided e n rq rr qv rv (roomy rq rr k j) s).
Proof.
  intros Lq Lr rc s1 s2 M T (A & B & C). split; [intros x Hx H1 H2; rewrite M by auto; apply A; auto|]. split; [lia|].
  destruct C as [(-> & Q & R & (W1 & W2))|(-> & (i & I1 & I2) & K)]; [left|right].
  - split; auto. split; [eapply holds_same; eauto|]. split; [eapply holds_same; eauto|]. split; intros x Hx; rewrite (len_same s1) by (apply M; auto); auto.
  - split; auto. split; [exists i; split; auto; lia|]. intros x Hx. rewrite M; auto.
Qed.
Lemma divided_from e n rq rr qv rv room s s1 rc s' : (forall x, (x < n)%nat -> mem s1 x = mem s x) -> (tick s <= tick s1)%nat ->
  divided e n rq rr qv rv room s1 rc s' -> divided e n rq rr qv rv room s rc s'.
Proof.
  intros M T (A & B & C). split; [intros; rewrite A, M; auto|]. split; [lia|]. destruct C as [C|(-> & S & K)]; [auto|right].
  split; auto. split; [eapply starved_mono; [| |exact S]; lia|]. intros; rewrite K, M; auto.
Qed.

Lemma adjust_zeros l k : adjust (l ++ repeat 0 k) = adjust l.
Proof.
  revert l. induction k as [|k IH]; intro l; [rewrite app_nil_r; auto|].
  replace (repeat 0 (S k)) with (repeat 0 k ++ [0]) by (rewrite <- repeat_cons; reflexivity). rewrite app_assoc, adjust_snoc. cbn [Z.eqb]. apply IH.
Qed.

(** handing the quotient over *)
Lemma give_q e n nn i dq T1 T2 X Y rq s (Q : unit -> st -> Prop) : D n nn i dq T1 T2 X Y s -> below n rq -> (forall q, rq = Some q -> live s q) ->
  (forall s', (forall x, (x < n)%nat -> Some x <> rq -> mem s' x = mem s x) -> tick s' = tick s -> calm (n + 5) s' -> (forall x, (n <= x < n + 5)%nat -> live s' x) ->
     has s' (n + 3) X -> len s' (n + 3) = len s (n + 3) -> holds s' rq (mkmpi false (adjust dq)) -> (forall q, rq = Some q -> len s' q = length dq) -> Q tt s') ->
  wp match rq with None => ret tt | Some q => call madjust n; call swap n q; set_sg q false end e s Q.
Proof.
  intros HD Bq Lq H. pose proof HD as (C & Mq & _ & _ & _ & _ & HX & _). destruct rq as [q|].
  2:{ apply wp_ret. apply H; cbn; auto; try discriminate. intros x Hx. eapply D_live; eauto. }
  specialize (Bq q eq_refl). specialize (Lq q eq_refl).
  assert (OB : ob s n = mkobj false (length dq) dq) by (apply mem_ob; auto).
  apply wp_bind. apply madjust_ok; [eapply mem_live; eauto|unfold len, dat; rewrite OB; cbn; lia|]. intros s1 (B1 & B2 & B3). unfold dat in B1. rewrite OB in B1. cbn [o_sg o_us o_da] in B1.
  apply wp_bind. apply swap_ok; [eapply mem_live; eauto|unfold live; rewrite B2 by lia; auto|]. intros s2 E1 E2 E3 E4. rewrite B1 in E2. rewrite B2 in E1 by lia.
  eapply set_sg_at; [exact E2|]. cbn [o_us o_da]. intros s3 (F1 & F2 & F3).
  assert (M3 : forall x, x <> n -> x <> q -> mem s3 x = mem s x) by (intros; rewrite F2, E3, B2; auto).
  destruct (adj_adjust dq (length dq) ltac:(lia)) as (AD & AL). rewrite firstn_all in AD.
  apply H.
  - intros x Hx N. apply M3; [lia|congruence].
  - congruence.
  - intros x Hx. rewrite M3 by lia. apply C. auto.
  - intros x Hx. destruct (Nat.eq_dec x n) as [->|N]; [unfold live; rewrite F2, E1 by lia; auto|]. unfold live. rewrite M3 by lia. eapply D_live; eauto.
  - eapply has_same; [apply M3; lia|auto].
  - apply len_same. apply M3; lia.
  - cbn. eapply has_intro; [exact F1|lia|]. rewrite AD. reflexivity.
  - intros x [= <-]. unfold len, dat. rewrite (mem_ob _ _ _ F1). reflexivity.
Qed.
(** handing the remainder over *)
Lemma give_r e n X norm rr s (Q : unit -> st -> Prop) : calm (n + 5) s -> (forall x, (n <= x < n + 5)%nat -> live s x) -> has s (n + 3) X -> below n rr -> (forall r, rr = Some r -> live s r) ->
  (forall s', (forall x, (x < n)%nat -> Some x <> rr -> mem s' x = mem s x) -> tick s' = tick s -> calm (n + 5) s' -> (forall x, (n <= x < n + 5)%nat -> live s' x) ->
     holds s' rr (mkmpi false (dg (shr X norm))) -> (forall r, rr = Some r -> (len s (n + 3) <= len s' r)%nat) -> Q tt s') ->
  wp match rr with None => ret tt | Some r => call shr_m (n + 3) (n + 3) norm; call swap (n + 3) r; set_sg r false end e s Q.
Proof.
  intros C L HX Br Lr H. destruct rr as [r|].
  2:{ apply wp_ret. apply H; cbn; auto; discriminate. }
  specialize (Br r eq_refl). specialize (Lr r eq_refl).
  apply wp_bind. eapply wp_mono; [eapply (shr_m_ok e (n + 3) (n + 3) norm X s HX (has_live _ _ _ HX))|]. intros rc s1 ((A1 & A2 & A3) & K). destruct (K eq_refl) as (-> & T1).
  destruct A3 as [(_ & V1 & L1)|(N & _)]; [|discriminate]. destruct V1 as (o & M1 & O1 & O2).
  apply wp_bind. apply swap_ok; [eapply mem_live; eauto|unfold live; rewrite A1 by lia; auto|]. intros s2 E1 E2 E3 E4. rewrite M1 in E2. rewrite A1 in E1 by lia.
  eapply set_sg_at; [exact E2|]. intros s3 (F1 & F2 & F3).
  assert (M3 : forall x, x <> (n + 3)%nat -> x <> r -> mem s3 x = mem s x) by (intros; rewrite F2, E3, A1; auto).
  apply H.
  - intros x Hx N. apply M3; [lia|congruence].
  - congruence.
  - intros x Hx. rewrite M3 by lia. apply C. auto.
  - intros x Hx. destruct (Nat.eq_dec x (n + 3)) as [->|N]; [unfold live; rewrite F2, E1 by lia; auto|]. unfold live. rewrite M3 by lia. apply L. auto.
  - cbn. eapply has_intro; [exact F1|exact O1|]. rewrite <- O2. reflexivity.
  - intros x [= <-]. assert (len s1 (n + 3) = len s3 r) by (unfold len, dat; rewrite (mem_ob _ _ _ F1), (mem_ob _ _ _ M1); reflexivity). lia.
Qed.
Lemma div_loop_length t y : forall k x acc q x', div_loop k t x y acc = Ok (q, x') -> length q = (length acc + k)%nat.
Proof.
  induction k as [|k IH]; intros x acc q x' F; cbn [div_loop] in F; [injection F as <- <-; lia|].
  destruct (used x <? t + S k)%nat; [rewrite (IH _ _ _ _ F); cbn; lia|]. destruct (div_step _ _ _ _) as [(q1 & x1)| | |]; try discriminate. cbn [bind] in F.
  rewrite (IH _ _ _ _ F). cbn. lia.
Qed.
Lemma washed_used s x v k : has s x v -> (k <= used v)%nat -> washed s x k.
Proof. intros H L. destruct (has_elim _ _ _ H) as (_ & U & _). right. intros j Hj. lia. Qed.
Lemma D_full n a b nn dq T1 T2 X Y s : D n a b dq T1 T2 X Y s -> used X = S nn -> D n nn nn dq T1 T2 X Y s.
Proof.
  intros (A1 & A2 & A3 & A4 & A5 & A6 & A7 & A8 & A9 & A0) U. destruct (has_elim _ _ _ A7) as (_ & _ & _ & _ & LU).
  repeat (split; auto); [lia|]. eapply washed_used; eauto. lia.
Qed.
Lemma D_sub n nn i nn' i' dq T1 T2 X Y s : (nn' <= nn)%nat -> (i' <= i)%nat -> D n nn i dq T1 T2 X Y s -> D n nn' i' dq T1 T2 X Y s.
Proof. intros L1 L2 (A1 & A2 & A3 & A4 & A5 & A6 & A7 & A8 & A9 & A0). repeat (split; auto); [lia|]. eapply washed_le; [|eauto]. lia. Qed.

Definition LV (rq rr : option nat) (s : st) : Prop := (forall x, rq = Some x -> live s x) /\ (forall x, rr = Some x -> live s x).
Lemma LV_fr n rq rr s s' : below n rq -> below n rr -> fr n s s' -> LV rq rr s -> LV rq rr s'.
Proof. intros Bq Br (M & _) (A & B). split; intros x Hx; unfold live; rewrite M by auto; [apply A|apply B]; auto. Qed.
Lemma fin_chk e n rq rr qv rv room s P m f : below n rq -> below n rr -> LV rq rr s -> wp m e s (Out e n s P) ->
  (forall s1, P s1 -> LV rq rr s1 -> wp f e s1 (post n 5 (divided e n rq rr qv rv room s1))) -> wp (check m f) e s (post n 5 (divided e n rq rr qv rv room s)).
Proof.
  intros Bq Br LL H1 H2. apply wp_check. eapply wp_mono; [exact H1|]. intros rc s4 (F & [(-> & HP)|(-> & HS & HC & HL)]); cbn [Z.eqb].
  - eapply wp_mono; [apply H2; [exact HP|eapply LV_fr; eauto]|]. intros rc s5 (A1 & A2 & A3). split; auto. split; auto. eapply divided_from; [apply F|apply F|exact A3].
  - split; auto. split; auto. split; [intros; apply F; auto|]. split; [apply F|]. right. split; auto. split; auto. apply F.
Qed.
Lemma fin_from e n rq rr qv rv room s s1 m : fr n s s1 -> wp m e s1 (post n 5 (divided e n rq rr qv rv room s1)) -> wp m e s1 (post n 5 (divided e n rq rr qv rv room s)).
Proof. intros F H. eapply wp_mono; [exact H|]. intros rc s9 (K1 & K2 & K3). split; [exact K1|]. split; [exact K2|]. eapply divided_from; [apply F|apply F|exact K3]. Qed.

Lemma main_ok e n rq rr va vb qv rv d1 d2 g1 g2 s : wf va -> wf vb -> is_zero vb = false -> cmp_abs va vb <? 0 = false -> div_abs va vb = Ok (qv, rv) ->
  calm (n + 5) s -> mem s n = Some (mkobj false (used va + 2) (repeat 0 (used va + 2))) ->
  mem s (n + 1) = Some (mkobj g1 0 d1) -> length d1 = 2%nat -> mem s (n + 2) = Some (mkobj g2 0 d2) -> length d2 = 3%nat -> g2 = false ->
  has s (n + 3) va -> has s (n + 4) vb ->
  below n rq -> below n rr -> LV rq rr s -> (forall x, rq = Some x -> rr <> Some x) ->
  wp (div_main_m n rq rr) e s (post n 5 (divided e n rq rr qv rv (roomy rq rr (used va + 2) (used va)) s)).
Proof.
  intros Wa Wb NZ CM FD C Mq M1 L1 M2 L2 -> HX HY Bq Br LL DQ.
  pose proof (div_abs_parts va vb Wa Wb NZ CM) as PP. cbv zeta in PP. unfold div_main_m.
  set (x := mkmpi false (dg va)) in *. set (y := mkmpi false (dg vb)) in *. set (bits := count_bits y mod 64) in *.
  set (norm := if bits <? 63 then 63 - bits else 0) in *.
  destruct PP as (P1 & P2 & P3 & P4 & P5 & P6 & P7 & P8 & P9 & P10 & P11 & P12 & P13 & qt & x1 & q & x' & FT & Wx1 & Nx1 & LT1 & FL & Nx' & FA).
  rewrite FA in FD. injection FD as <- <-. clear FA.
  apply wp_bind. destruct (has_elim _ _ _ HX) as (LX & UX & SX & DX & LNX). eapply set_sg_at; [apply live_ob; exact LX|]. intros s1 S1.
  assert (HX1 : has s1 (n + 3) x) by (destruct S1 as (S1 & _); eapply has_intro; [exact S1|rewrite UX; exact LNX|unfold x; f_equal; rewrite UX; symmetry; exact DX]).
  assert (HY1 : has s1 (n + 4) vb) by (eapply has_same; [apply S1; lia|auto]).
  apply wp_bind. destruct (has_elim _ _ _ HY1) as (LY & UY & SY & DY & LNY). eapply set_sg_at; [apply live_ob; exact LY|]. intros s2 S2.
  assert (HY2 : has s2 (n + 4) y) by (destruct S2 as (S2 & _); eapply has_intro; [exact S2|rewrite UY; exact LNY|unfold y; f_equal; rewrite UY; symmetry; exact DY]).
  assert (HX2 : has s2 (n + 3) x) by (eapply has_same; [apply S2; lia|auto]).
  assert (MM : forall z, z <> (n + 3)%nat -> z <> (n + 4)%nat -> mem s2 z = mem s z) by (intros z Hz1 Hz2; rewrite (proj1 (proj2 S2)), (proj1 (proj2 S1)); auto).
  assert (TT : tick s2 = tick s) by (rewrite (proj2 (proj2 S2)), (proj2 (proj2 S1)); auto).
  destruct (has_elim _ _ _ HX2) as (_ & _ & _ & _ & LX2).
  set (L := (used va + 2)%nat) in *.
  assert (D2 : D n 0 0 (repeat 0 L) (mkobj g1 0 d1) (mkobj false 0 d2) x y s2).
  { split; [intros z Hz; rewrite MM by lia; apply C; auto|]. rewrite !MM by lia. rewrite repeat_length. cbn [o_us o_da o_sg]. change (used x) with (used va) in *.
    repeat (split; auto); try lia. eapply washed_used; [exact HX2|]. change (used x) with (used va). lia. }
  clear S1 S2 HX1 HY1 LY UY SY DY LNY LX UX SX DX LNX.
  (* from here on the outcome is relative to s2 *)
  assert (FRM : fr n s s2) by (split; [intros; apply MM; lia|lia]).
  apply (LV_fr _ _ _ _ _ Bq Br FRM) in LL.
  eapply (wp_mono _ e s2 (post n 5 (divided e n rq rr (mkmpi false (adjust q)) (mkmpi false (dg (shr x' norm))) (roomy rq rr L (used va)) s2))).
  2:{ intros rc s9 (K1 & K2 & K3). split; auto. split; auto. eapply divided_from; [exact (proj1 FRM)|exact (proj2 FRM)|exact K3]. }
  clear C Mq M1 M2 HX HY MM TT FRM s s1 HX2 HY2 LX2.
  apply wp_bind. eapply wp_peek; [apply D2|]. cbv zeta. fold bits. fold norm.
  eapply (fin_chk e n rq rr _ _ _ s2 (D n 0 0 (repeat 0 L) (mkobj g1 0 d1) (mkobj false 0 d2) (shl x norm) (shl y norm))); auto.
  { assert (EN : bits <? 63 = false -> norm = 0) by (unfold norm; intros ->; reflexivity). destruct (bits <? 63).
    2:{ apply out_ret. rewrite EN, !shl_0 by auto. exact D2. }
    eapply (out_chk e n s2 (D n 0 0 (repeat 0 L) (mkobj g1 0 d1) (mkobj false 0 d2) (shl x norm) y)).
    - eapply (op_x n 0 0 0); [exact D2|]. assert (HX : has s2 (n + 3) x) by apply D2. eapply wp_mono; [eapply (shl_m_ok e (n + 3) (n + 3) norm x s2 HX); exists x; exact HX|].
      intros rc s3 K. rewrite Nat.eqb_refl in K. split; [exact K|]. intros ->. destruct K as (_ & _ & [(_ & V & _)|(N & _)]); [|discriminate]. eapply washed_used; [exact V|lia].
    - intros s3 D3. eapply op_y; [exact D3|]. assert (HY : has s3 (n + 4) y) by apply D3. eapply wp_mono; [eapply (shl_m_ok e (n + 4) (n + 4) norm y s3 HY); exists y; exact HY|].
      intros rc s4 K. rewrite Nat.eqb_refl in K. exact K. }
  clear D2 LL s2. intros s2 D2 LL.
  set (X := shl x norm) in *. set (Y := shl y norm) in *. set (nn := (used X - 1)%nat) in *. set (t := (used Y - 1)%nat) in *.
  assert (HX : has s2 (n + 3) X) by apply D2. assert (HY : has s2 (n + 4) Y) by apply D2.
  destruct (has_elim _ _ _ HX) as (LX & UX & _). destruct (has_elim _ _ _ HY) as (LY & UY & _).
  apply wp_bind. apply wp_get; auto. apply wp_bind. apply wp_get; auto. rewrite UX, UY. fold nn t. rewrite (proj2 (Nat.ltb_ge _ _)) by auto.
  apply (D_full _ _ _ nn) in D2; [|auto].
  eapply (fin_chk e n rq rr _ _ _ s2); auto.
  { eapply op_y; [exact D2|]. eapply wp_mono; [eapply (shld_m_ok e (n + 4) (nn - t) Y s2 HY)|]. intros rc s3 (K & _). exact K. }
  clear HX HY LX UX LY UY D2 LL s2. intros s2 D2 LL.
  assert (ZY : is_zero Y = false) by (rewrite is_zero_used, P4; reflexivity).
  assert (KL : (nn - t < L)%nat) by lia.
  eapply (fin_chk e n rq rr _ _ _ s2); auto.
  { eapply (top_m_ok n nn e (nn - t)); [exact P9|exact P10|rewrite shld_used by auto; lia|exact P7|exact P8|exact D2|rewrite repeat_length; exact KL| |exact FT]. apply nth_repeat. }
  clear D2 LL s2. intros s2 D2 LL. assert (HY : has s2 (n + 4) (shld Y (nn - t))) by apply D2.
  assert (EQ : upd (repeat 0 L) (nn - t) qt = repeat 0 (nn - t) ++ [qt] ++ repeat 0 (L - S (nn - t))).
  { rewrite <- (upd_mid (nn - t) qt [] (repeat 0 (L - S (nn - t)))). cbn [app]. rewrite <- repeat_app. repeat f_equal. lia. }
  rewrite EQ in D2. clear EQ.
  apply wp_bind. eapply wp_mono; [eapply (shrd_m_ok e (n + 4) (nn - t) _ s2 HY)|]. intros rc s3 (-> & o & BO & O1 & O2 & O3). rewrite shrd_shld in O2 by auto.
  assert (LF : leaf e (n + 4) true Y s2 0 s3) by (eapply becomes_leaf; [exact BO|exact O1|exact O2|lia]).
  destruct (D_y _ _ _ _ _ _ _ _ Y e _ s3 D2 LF) as (D3 & F3). apply (LV_fr _ _ _ _ _ Bq Br F3) in LL.
  apply (fin_from e n rq rr _ _ _ s2 s3 _ F3).
  clear D2 HY BO O1 O2 O3 LF F3 s2 o.
  eapply (fin_chk e n rq rr _ _ _ s3); auto.
  { eapply (loop_m_ok n nn e t Y P11 P12 P4 P13 (nn - t) x1 [qt]); [exact Wx1|exact Nx1|exact LT1|lia| |exact FL]. eapply D_sub; [| |exact D3]; lia. }
  clear D3 LL s3. intros s3 (T1 & T2 & D3) LL.
  apply wp_bind. eapply give_q; [exact D3|exact Bq|apply LL|]. intros s4 A1 A2 A3 A4 A5 A6 A7 A8.
  apply wp_bind. eapply (give_r e n x' norm); [exact A3|exact A4|exact A5|exact Br| |].
  { intros r Hr. unfold live. rewrite A1; [apply LL; auto|apply Br; auto|]. intro E. symmetry in E. exact (DQ r E Hr). }
  intros s5 B1 B2 B3 B4 B5 B6. apply wp_ret. split; [exact B3|]. split; [exact B4|]. split; [intros z Hz N1 N2; rewrite B1, A1; auto|]. split; [lia|]. left. split; auto.
  assert (LN : length (q ++ repeat 0 (L - S (nn - t))) = L).
  { pose proof (div_loop_length _ _ _ _ _ _ _ FL). cbn [length] in *. rewrite app_length, repeat_length. lia. }
  split; [|split; [exact B5|split]].
  - rewrite adjust_zeros in A7. destruct rq as [z|]; cbn [holds] in *; auto. eapply has_same; [|exact A7]. apply B1; [apply Bq; auto|]. intro E. symmetry in E. exact (DQ z eq_refl E).
  - intros z Hz. rewrite (len_same s4); [rewrite (A8 z Hz); lia|]. apply B1; [apply Bq; auto|]. intro E. symmetry in E. exact (DQ z Hz E).
  - intros z Hz. specialize (B6 z Hz). destruct D3 as (_ & _ & _ & _ & _ & _ & _ & LL3 & _). lia.
Qed.

Definition abs_div (e : env) (n : nat) (rq rr : option nat) (big : bool) (k : nat) (qv rv : mpi) (s : st) (rc : Z) (s' : st) : Prop :=
  calm n s' /\ (forall x, (x < n)%nat -> Some x <> rq -> Some x <> rr -> mem s' x = mem s x) /\ (tick s <= tick s')%nat /\
  (rc = 0 /\ holds s' rq qv /\ holds s' rr rv /\ (if big then roomy rq rr (k + 2) k s' else forall x, rq = Some x -> len s' x = len s x) \/
   rc = -1 /\ starved e s s' /\ (if big then forall x, (x < n)%nat -> mem s' x = mem s x else forall x, Some x = rq \/ Some x = rr -> usable s' x)).
Lemma div_abs_m_ok e n rq rr a b va vb qv rv s : wf va -> wf vb -> calm n s -> (a < n)%nat -> (b < n)%nat -> has s a va -> has s b vb -> below n rq -> below n rr ->
  (forall x, rq = Some x -> usable s x) -> (forall x, rr = Some x -> usable s x) -> (forall x, rq = Some x -> rr <> Some x) -> is_zero vb = false -> div_abs va vb = Ok (qv, rv) ->
  wp (div_abs_m n rq rr a b) e s (abs_div e n rq rr (negb (cmp_abs va vb <? 0)) (used va) qv rv s).
Proof.
  intros Wa Wb C La Lb Ha Hb Bq Br Uq Ur DQ NZ F. unfold div_abs_m. apply wp_bind. eapply wp_peek; eauto. apply wp_bind. eapply wp_peek; eauto. rewrite NZ.
  destruct (cmp_abs va vb <? 0) eqn:CM; cbn [negb].
  - unfold div_abs in F. rewrite NZ, CM in F. injection F as <- <-.
    apply wp_bind. eapply (wp_mono _ e s (fun rc s' => (forall x, (x < n)%nat -> Some x <> rr -> mem s' x = mem s x) /\ (tick s <= tick s')%nat /\ calm n s' /\
      (rc = 0 /\ holds s' rr va \/ rc = -1 /\ starved e s s' /\ forall x, mem s' x = mem s x))).
    { destruct rr as [r|]; [|apply wp_ret; cbn; auto 6]. specialize (Br r eq_refl). eapply wp_mono; [eapply (copy_ok e r a va s Ha); apply usable_live; apply Ur; auto|].
      intros rc s1 (A & T & K). split; [intros x Hx N; apply A; congruence|]. split; auto. split; [intros x Hx; rewrite A by lia; apply C; auto|].
      destruct K as [(-> & V & _)|(-> & S & M)]; [auto|right]. split; auto. split; auto. intro x. destruct (Nat.eq_dec x r) as [->|N]; auto. }
    intros rc s1 (A & T & C1 & K). destruct rq as [q|].
    + specialize (Bq q eq_refl). assert (Nq : Some q <> rr) by (intro E; symmetry in E; exact (DQ q eq_refl E)).
      assert (L1 : live s1 q) by (unfold live; rewrite A by auto; apply usable_live; auto).
      apply wp_bind. apply zero_ok; [exact L1|]. intros s2 (B1 & B2 & B3). apply wp_ret. split; [intros x Hx; rewrite B2 by lia; apply C1; auto|].
      split; [intros x Hx N1 N2; rewrite B2 by congruence; apply A; auto|]. split; [lia|].
      assert (HQ : has s2 q mzero) by (eapply has_intro; [exact B1|lia|reflexivity]).
      destruct K as [(-> & V)|(-> & S & M)]; [left|right]; (split; [reflexivity|]).
      * split; [exact HQ|]. split; [|intros x [= <-]; unfold len; unfold dat at 1; rewrite (mem_ob _ _ _ B1); cbn [o_da]; change (len s1 q = len s q); apply len_same; apply A; auto].
        destruct rr as [r|]; cbn in *; auto. eapply has_same; [apply B2; congruence|auto].
      * split; [destruct S as (j & J1 & J2); exists j; split; auto; lia|]. intros x [[= ->]|E]; [eexists; eauto|].
        destruct (Ur x ltac:(auto)) as (w & Hw). exists w. eapply has_same; [rewrite B2, M; [reflexivity|congruence]|auto].
    + apply wp_bind. apply wp_ret. apply wp_ret. split; [auto|]. split; [auto|]. split; auto.
      destruct K as [(-> & V)|(-> & S & M)]; [left|right]; (split; [reflexivity|]); [split; [cbn; auto|split; [auto|discriminate]]|].
      split; auto. intros x [E|E]; [discriminate|]. destruct (Ur x ltac:(auto)) as (w & Hw). exists w. eapply has_same; [apply M|auto].
  - assert (FAIL : forall s', calm n s' -> (forall x, (x < n)%nat -> mem s' x = mem s x) -> (tick s <= tick s')%nat -> starved e s s' -> abs_div e n rq rr true (used va) qv rv s (-1) s').
    { intros s' A1 A2 A3 A4. repeat (split; auto). }
    assert (FP : forall k s', calm (n + k) s' -> (forall x, (n <= x < n + k)%nat -> live s' x) -> (forall x, (x < n)%nat -> mem s' x = mem s x) -> (tick s <= tick s')%nat -> starved e s s' ->
       post n k (divided e n rq rr qv rv (roomy rq rr (used va + 2) (used va)) s) (-1) s').
    { intros k s' A1 A2 A3 A4 A5. repeat (split; auto). }
    pose proof (divided_stable e n rq rr qv rv (used va + 2) (used va) s Bq Br) as ST.
    apply wp_check. eapply wp_mono; [apply init_size_ok|]. intros rc s1 (A1 & T1 & [(-> & d0 & M0 & L0)|(-> & S1 & M1)]); cbn [Z.eqb].
    2:{ apply FAIL; auto; [|intros; apply A1; lia]. intros x Hx. destruct (Nat.eq_dec x n) as [->|N]; [auto|rewrite A1 by auto; apply C; auto]. }
    apply wp_bind. apply set_used_ok; [eapply mem_live; eauto|unfold len, dat; rewrite (mem_ob _ _ _ M0); cbn; lia|]. intros s2 (B1 & B2 & B3).
    unfold dat in B1. rewrite (mem_ob _ _ _ M0) in B1. cbn [o_sg o_da] in B1. rewrite (skipn_all2 d0) in B1 by lia. rewrite app_nil_r in B1.
    assert (M2 : forall x, x <> n -> mem s2 x = mem s x) by (intros; rewrite B2, A1; auto). clear A1 M0 L0 B2 d0. assert (T2 : (tick s <= tick s2)%nat) by lia. clear T1 B3 s1.
    eapply (wp_mono _ e s2 (post n 0 (divided e n rq rr qv rv (roomy rq rr (used va + 2) (used va)) s))).
    2:{ intros rc s9 (K1 & _ & (K3 & K4 & K5)). rewrite Nat.add_0_r in K1. split; auto. }
    eapply (scope e n 0); [lia|exact ST|].
    apply wp_check. eapply wp_mono; [apply init_size_ok|]. intros rc s3 (A1 & T1 & [(-> & d1 & M3 & L1)|(-> & S1 & M3)]); cbn [Z.eqb].
    2:{ apply FP; [intros x Hx; destruct (Nat.eq_dec x (n + 1)) as [->|N]; [auto|rewrite A1, M2 by lia; apply C; lia]|intros x Hx; assert (x = n) as -> by lia; unfold live; rewrite A1, B1 by lia; discriminate|intros; rewrite A1, M2 by lia; auto|lia|eapply starved_mono; [| |exact S1]; lia]. }
    eapply (scope e n 1); [lia|exact ST|].
    assert (Q3 : mem s3 n = Some (mkobj false (used va + 2) (repeat 0 (used va + 2)))) by (rewrite A1 by lia; exact B1).
    assert (M4 : forall x, x <> n -> x <> (n + 1)%nat -> mem s3 x = mem s x) by (intros; rewrite A1, M2; auto). clear A1 M2 B1. assert (T3 : (tick s <= tick s3)%nat) by lia. clear T1 T2 s2.
    apply wp_check. eapply wp_mono; [apply init_size_ok|]. intros rc s4 (A1 & T1 & [(-> & d2 & M5 & L2)|(-> & S1 & M5)]); cbn [Z.eqb].
    2:{ apply FP; [intros x Hx; destruct (Nat.eq_dec x (n + 2)) as [->|N]; [auto|rewrite A1, M4 by lia; apply C; lia]| |intros; rewrite A1, M4 by lia; auto|lia|eapply starved_mono; [| |exact S1]; lia].
        intros x Hx. unfold live. rewrite A1 by lia. assert (E : x = n \/ x = (n + 1)%nat) by lia. destruct E as [->| ->]; [rewrite Q3|rewrite M3]; discriminate. }
    eapply (scope e n 2); [lia|exact ST|].
    assert (Q4 : mem s4 n = Some (mkobj false (used va + 2) (repeat 0 (used va + 2)))) by (rewrite A1 by lia; exact Q3).
    assert (Q4' : mem s4 (n + 1) = Some (mkobj false 0 d1)) by (rewrite A1 by lia; exact M3).
    assert (M6 : forall x, x <> n -> x <> (n + 1)%nat -> x <> (n + 2)%nat -> mem s4 x = mem s x) by (intros; rewrite A1, M4; auto). clear A1 M4 M3 Q3. assert (T4 : (tick s <= tick s4)%nat) by lia. clear T1 T3 s3.
    apply wp_check. eapply wp_mono; [eapply (init_copy_ok e (n + 3) a va s4); [lia|eapply has_same; [apply M6; lia|exact Ha]]|]. intros rc s5 (A1 & T1 & [(-> & H5)|(-> & S1 & H5)]); cbn [Z.eqb].
    2:{ apply FP; [intros x Hx; destruct (Nat.eq_dec x (n + 3)) as [->|N]; [auto|rewrite A1, M6 by lia; apply C; lia]| |intros; rewrite A1, M6 by lia; auto|lia|eapply starved_mono; [| |exact S1]; lia].
        intros x Hx. unfold live. rewrite A1 by lia. assert (E : x = n \/ x = (n + 1)%nat \/ x = (n + 2)%nat) by lia. destruct E as [->|[->| ->]]; [rewrite Q4|rewrite Q4'|rewrite M5]; discriminate. }
    eapply (scope e n 3); [lia|exact ST|].
    rewrite <- (A1 n) in Q4 by lia. rewrite <- (A1 (n + 1)%nat) in Q4' by lia. rewrite <- (A1 (n + 2)%nat) in M5 by lia.
    assert (M7 : forall x, x <> n -> x <> (n + 1)%nat -> x <> (n + 2)%nat -> x <> (n + 3)%nat -> mem s5 x = mem s x) by (intros; rewrite A1, M6; auto). clear A1 M6. assert (T5 : (tick s <= tick s5)%nat) by lia. clear T1 T4 s4.
    apply wp_check. eapply wp_mono; [eapply (init_copy_ok e (n + 4) b vb s5); [lia|eapply has_same; [apply M7; lia|exact Hb]]|]. intros rc s6 (A1 & T1 & [(-> & H6)|(-> & S1 & H6)]); cbn [Z.eqb].
    2:{ apply FP; [intros x Hx; destruct (Nat.eq_dec x (n + 4)) as [->|N]; [auto|rewrite A1, M7 by lia; apply C; lia]| |intros; rewrite A1, M7 by lia; auto|lia|eapply starved_mono; [| |exact S1]; lia].
        intros x Hx. unfold live. rewrite A1 by lia. assert (E : x = n \/ x = (n + 1)%nat \/ x = (n + 2)%nat \/ x = (n + 3)%nat) by lia. destruct E as [->|[->|[->| ->]]]; [rewrite Q4; discriminate|rewrite Q4'; discriminate|rewrite M5; discriminate|eapply has_live; eauto]. }
    eapply (scope e n 4); [lia|exact ST|].
    rewrite <- (A1 n) in Q4 by lia. rewrite <- (A1 (n + 1)%nat) in Q4' by lia. rewrite <- (A1 (n + 2)%nat) in M5 by lia. apply (has_same s5 s6 (n + 3) va (A1 (n + 3)%nat ltac:(lia))) in H5.
    assert (M8 : forall x, (x < n)%nat -> mem s6 x = mem s x) by (intros; rewrite A1, M7 by lia; auto).
    eapply wp_mono; [eapply (main_ok e n rq rr va vb qv rv d1 d2 false false s6); eauto|].
    + intros x Hx. rewrite A1, M7 by lia. apply C. lia.
    + split; intros x Hx; unfold live; rewrite M8 by auto; apply usable_live; auto.
    + intros rc s9 (K1 & K2 & K3). split; [exact K1|]. split; [exact K2|]. eapply divided_from; [exact M8|lia|exact K3].
Qed.
Lemma div_abs_m_zero e n rq rr a b va vb s : has s a va -> has s b vb -> is_zero vb = true -> wp (div_abs_m n rq rr a b) e s (fun rc s' => rc = -1 /\ s' = s).
Proof. intros Ha Hb Z. unfold div_abs_m. apply wp_bind. eapply wp_peek; eauto. apply wp_bind. eapply wp_peek; eauto. rewrite Z. apply wp_ret. auto. Qed.
