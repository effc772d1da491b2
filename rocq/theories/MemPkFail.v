(** Memory-level DSA, ElGamal and RSA once memory runs out. *)
From Verif Require Import Base Lists BytesSpec Bytes Bits MpiModel MpiSpec MpiDigits MpiMulModel MpiCanon MpiDivModel MpiDiv MpiAlgModel MpiAlg MpiAlg2 MpiIOModel MpiIO Pk PkModel PkSpec MemModel MemMulModel MemDivModel MemAlgModel MemSpec Mem MemOps MemShift MemLeaf MemMul MemLoc MemExp MemAlgSpec MemInv MemInv2 MemEcpModel MemEcpSpec MemEcp MemBin MemEcdsa MemEcpFail MemPkModel MemPkSpec MemFair MemDsa.
Ltac Zify.zify_post_hook ::= idtac.

Lemma locals_granted e n k f s (Q : Z -> st -> Prop) : calm n s -> (forall i, (tick s <= i < tick s + k)%nat -> grant e i = true) ->
  (forall s', vloc n (repeat mzero k) s s' -> tick s' = (tick s + k)%nat -> wp f e s' Q) -> wp (chk init_list [] (locals n k); f) e s Q.
Proof.
  intros C G F. apply wp_check. assert (Lk : length (locals n k) = k) by (unfold locals; apply seq_length).
  eapply wp_mono; [apply wp_and; [apply (init_list_granted e (locals n k) []); rewrite Lk; exact G|apply init_list_ok; [apply seq_NoDup|intros x []]]|].
  rewrite Lk. intros rc s1 ((-> & T) & (M & T1 & [(_ & V & _)|(F' & _)])); [|discriminate F']. rewrite Z.eqb_refl. apply F; [|exact T].
  split; [rewrite repeat_length; intros y Hy; rewrite M by (try rewrite in_locals; auto; lia); apply C; lia|]. split; [intros x Hx; apply M; [rewrite in_locals; lia|auto]|]. split; [exact T1|].
  rewrite repeat_length. intros i Hi. replace (nth i (repeat mzero k) mzero) with mzero by (symmetry; apply nth_repeat). apply V. apply in_locals. lia.
Qed.
Lemma inv_refused e s n r a m v : calm n s -> has s m v -> grant e (tick s) = false ->
  wp (inv_m n r a m) e s (fun rc s' => rc = -1 /\ calm n s' /\ (forall y, (y < n)%nat -> mem s' y = mem s y)).
Proof.
  intros C H G. unfold inv_m, inv_fuel_m, locals. cbn [seq init_list]. apply wp_bind. eapply wp_peek; [exact H|].
  apply wp_check, wp_bind. eapply wp_mono; [apply init_refused; exact G|]. intros rc s1 (-> & _ & M & F). change (-1 =? 0) with false. cbv iota. cbn [rev clear_list].
  apply wp_bind, wp_ret, wp_ret. change (-1 =? 0) with false. cbv iota. split; auto. split; [|intros y Hy; apply F; lia].
  intros y Hy. destruct (Nat.eq_dec y n) as [->|N]; [left; exact M|]. rewrite F by exact N. apply C. exact Hy.
Qed.
Lemma secret_refused e s n k q bin : calm n s -> grant e (tick s) = false ->
  wp (dsa_secret_m n k q bin) e s (fun rc s' => rc = -1 /\ calm n s' /\ (forall y, (y < n)%nat -> mem s' y = mem s y)).
Proof.
  intros C G. unfold dsa_secret_m. apply with_one_wp. intros s1 _ M1 T1. apply wp_check. eapply wp_mono; [apply init_refused; rewrite T1; exact G|].
  intros rc s2 (-> & _ & M & F). change (-1 =? 0) with false. cbv iota. split; auto. split.
  - intros y Hy. destruct (Nat.eq_dec y (n + 1)) as [->|N]; [right; apply put_same|]. rewrite put_other by exact N. destruct (Nat.eq_dec y n) as [->|N']; [left; exact M|]. rewrite F, M1 by auto. apply C. exact Hy.
  - intros y Hy. rewrite put_other, F, M1 by lia. reflexivity.
Qed.
(** the state of a body whose destinations are the locals *)
Definition inside (n k : nat) (s0 s : st) : Prop :=
  calm (n + k) s /\ (forall x, (x < n)%nat -> mem s x = mem s0 x) /\ (tick s0 + k <= tick s)%nat /\ (forall i, (i < k)%nat -> live s (n + i)).
Lemma inside_leaf e n k s0 s i v rc s' : inside n k s0 s -> (i < k)%nat -> leaf e (n + i) true v s rc s' -> inside n k s0 s'.
Proof.
  intros (C & F & T & U) I (M & T' & D). split; [intros y Hy; rewrite M by lia; apply C; exact Hy|]. split; [intros x Hx; rewrite M by lia; auto|]. split; [lia|].
  intros j Hj. destruct (Nat.eq_dec j i) as [->|N]; [|unfold live; rewrite M by lia; apply U; exact Hj].
  destruct D as [(_ & H & _)|(_ & _ & D)]; [eapply has_live; exact H|]. unfold live. rewrite D. apply U. exact Hj.
Qed.
Lemma inside_leaf0 e n k s0 s v rc s' : inside n k s0 s -> (0 < k)%nat -> leaf e n true v s rc s' -> inside n k s0 s'.
Proof. intros I L Lf. eapply (inside_leaf e n k s0 s 0); [exact I|exact L|]. rewrite Nat.add_0_r. exact Lf. Qed.
Lemma inside_calm n k s0 s s' : inside n k s0 s -> calm (n + k) s' -> (forall y, (y < n + k)%nat -> mem s' y = mem s y) ->
  calm (n + k) s' /\ (forall x, (x < n)%nat -> mem s' x = mem s0 x) /\ (forall i, (i < k)%nat -> live s' (n + i)).
Proof.
  intros (C & F & T & U) C' M. split; [exact C'|]. split; [intros x Hx; rewrite M by lia; auto|]. intros i Hi. unfold live. rewrite M by lia. apply U. exact Hi.
Qed.
Lemma drop_wp e n k s0 s : calm (n + k) s -> (forall x, (x < n)%nat -> mem s x = mem s0 x) -> (forall i, (i < k)%nat -> live s (n + i)) ->
  wp (clear_list (locals n k)) e s (fun _ s' => 0 = 0 /\ untouched n s0 s').
Proof.
  intros C F H. eapply wp_mono; [apply clear_list_ok|].
  { intros y Hy. apply in_locals in Hy. replace y with (n + (y - n))%nat by lia. apply H. lia. }
  intros _ s2 (A1 & A2 & A3). split; auto. split.
  - intros y Hy. destruct (in_dec Nat.eq_dec y (locals n k)) as [I|I]; [right; apply A1; exact I|]. rewrite A2 by exact I. rewrite in_locals in I. apply C. lia.
  - intros x Hx. rewrite A2 by (rewrite in_locals; lia). apply F. auto.
Qed.
Lemma drop_inside e n k s0 s : inside n k s0 s -> wp (clear_list (locals n k)) e s (fun _ s' => 0 = 0 /\ untouched n s0 s').
Proof. intros (C & F & _ & U). apply drop_wp; auto. Qed.

(** * DSA *)
(** memory runs out after the temporaries *)
Theorem dsa_verify_lost e s0 n c r s m vq vs : calm n s0 -> (c + 1 < n)%nat -> (s < n)%nat -> has s0 (c + 1) vq -> has s0 s vs ->
  (forall i, (i < 4)%nat -> grant e (tick s0 + i) = true) -> (forall i, (4 <= i)%nat -> grant e (tick s0 + i) = false) ->
  wp (dsa_verify_m n c r s m) e s0 (fun rc s' => rc = 0 /\ untouched n s0 s').
Proof.
  intros C Lc Ls Hq Hs G1 G2. unfold dsa_verify_m. apply locals_granted; [exact C|intros i Hi; replace i with (tick s0 + (i - tick s0))%nat by lia; apply G1; lia|]. intros s1 K T1. cbn [repeat] in K.
  assert (I1 : inside n 4 s0 s1). { destruct K as (A1 & A2 & A3 & A4). split; [exact A1|]. split; [exact A2|]. split; [lia|]. intros i Hi. eapply has_live. apply A4. exact Hi. }
  assert (Hq1 : has s1 (c + 1) vq) by (eapply vloc_out; [exact K|exact Lc|exact Hq]). assert (Hs1 : has s1 s vs) by (eapply vloc_out; [exact K|exact Ls|exact Hs]).
  apply wp_finally. clear K T1. destruct (has_elim _ _ _ Hq1) as (Lvq & _). apply wp_bind. apply wp_get; [exact Lvq|].
  apply wp_try. eapply wp_mono; [apply load_bin_leaf; rewrite <- (Nat.add_0_r n); apply I1; lia|]. intros rc s2 Lf. pose proof (inside_leaf0 _ _ _ _ _ _ _ _ I1 ltac:(lia) Lf) as I2. destruct (rc =? 0); [|apply drop_inside; exact I2].
  assert (Hq2 : has s2 (c + 1) vq) by (eapply has_same; [apply (proj1 Lf); lia|exact Hq1]). assert (Hs2 : has s2 s vs) by (eapply has_same; [apply (proj1 Lf); lia|exact Hs1]). clear I1 Lf Hq1 Hs1 Lvq.
  apply wp_try. eapply wp_mono; [apply copy_ok; [exact Hs2|apply I2; lia]|]. intros rc2 s3 Lf. pose proof (inside_leaf _ _ _ _ _ 1%nat _ _ _ I2 ltac:(lia) Lf) as I3. destruct (rc2 =? 0); [|apply drop_inside; exact I3].
  assert (Hq3 : has s3 (c + 1) vq) by (eapply has_same; [apply (proj1 Lf); lia|exact Hq2]). clear I2 Lf Hq2 Hs2.
  apply wp_try. eapply wp_mono; [eapply (inv_refused e s3 (n + 4)); [apply I3|exact Hq3|replace (tick s3) with (tick s0 + (tick s3 - tick s0))%nat by (destruct I3 as (_ & _ & T & _); lia); apply G2; destruct I3 as (_ & _ & T & _); lia]|].
  intros rc3 s4 (-> & C4 & M4). change (-1 =? 0) with false. cbv iota. destruct (inside_calm n 4 s0 s3 s4 I3 C4 M4) as (A1 & A2 & A3). apply drop_wp; auto.
Qed.
Theorem dsa_sign_lost e s0 n c r s bin m vq : calm n s0 -> (c + 1 < n)%nat -> has s0 (c + 1) vq ->
  (forall i, (i < 2)%nat -> grant e (tick s0 + i) = true) -> (forall i, (2 <= i)%nat -> grant e (tick s0 + i) = false) ->
  wp (dsa_sign_m n c r s bin m) e s0 (fun rc s' => rc = 0 /\ untouched n s0 s').
Proof.
  intros C Lc Hq G1 G2. unfold dsa_sign_m. apply locals_granted; [exact C|intros i Hi; replace i with (tick s0 + (i - tick s0))%nat by lia; apply G1; lia|]. intros s1 K T1. cbn [repeat] in K.
  assert (I1 : inside n 2 s0 s1). { destruct K as (A1 & A2 & A3 & A4). split; [exact A1|]. split; [exact A2|]. split; [lia|]. intros i Hi. eapply has_live. apply A4. exact Hi. }
  assert (Hq1 : has s1 (c + 1) vq) by (eapply vloc_out; [exact K|exact Lc|exact Hq]).
  apply wp_finally. clear K T1. destruct (has_elim _ _ _ Hq1) as (Lvq & _). apply wp_bind. apply wp_get; [exact Lvq|].
  apply wp_try. eapply wp_mono; [apply load_bin_leaf; apply I1; lia|]. intros rc s2 Lf. pose proof (inside_leaf _ _ _ _ _ 1%nat _ _ _ I1 ltac:(lia) Lf) as I2. destruct (rc =? 0); [|apply drop_inside; exact I2].
  apply wp_try. eapply wp_mono; [apply (secret_refused e s2 (n + 2)); [apply I2|replace (tick s2) with (tick s0 + (tick s2 - tick s0))%nat by (destruct I2 as (_ & _ & T & _); lia); apply G2; destruct I2 as (_ & _ & T & _); lia]|].
  intros rc3 s4 (-> & C4 & M4). change (-1 =? 0) with false. cbv iota. destruct (inside_calm n 2 s0 s2 s4 I2 C4 M4) as (A1 & A2 & A3). apply drop_wp; auto.
Qed.

(** * ElGamal *)
Theorem eg_verify_wild e s0 n c r s p g y d rv sv m : calm n s0 -> (c + 3 < n)%nat -> (r < n)%nat -> (s < n)%nat ->
  holding s0 c [p; g; y; d] -> has s0 r (ofZ rv) -> has s0 s (ofZ sv) -> 0 < p -> 0 <= rv -> Z.of_nat (length m) <= count_bytes (ofZ p) ->
  (forall i, (i < 2)%nat -> grant e (tick s0 + i) = true) -> grant e (tick s0 + 2) = false ->
  eg_verify2_m n c r s m e s0 = UB.
Proof.
  intros C Lc Lr Ls (Hp & Hg & Hy & _ & _) Hr Hs Pp Pr Lm G1 G2. unfold eg_verify2_m. rewrite (bind_at _ _ _ _ _ _ (peek_at _ _ _ _ Hp)). destruct (Z.ltb_spec (count_bytes (ofZ p)) (Z.of_nat (length m))) as [F|_]; [lia|].
  assert (W : wp (init_list [] (locals n 2)) e s0 (fun rc s' => rc = 0 /\ vloc n [mzero; mzero] s0 s' /\ tick s' = (tick s0 + 2)%nat)).
  { assert (W : wp (chk init_list [] (locals n 2); ret 0) e s0 (fun rc s' => rc = 0 /\ vloc n [mzero; mzero] s0 s' /\ tick s' = (tick s0 + 2)%nat)).
    { apply locals_granted; [exact C|intros i Hi; replace i with (tick s0 + (i - tick s0))%nat by lia; apply G1; lia|]. intros s' K T. apply wp_ret. auto. }
    unfold wp, check, cbind in *. destruct (init_list [] (locals n 2) e s0) as [[rc s']|?| |]; auto. destruct (Z.eqb_spec rc 0) as [->|N]; [exact W|]. destruct W as (W & _). contradiction. }
  apply wp_ok in W. destruct W as (rc & s1 & E & -> & K & T). unfold check at 1. rewrite (bind_at _ _ _ _ _ _ E). rewrite Z.eqb_refl.
  unfold finally. apply ub_here. unfold check at 1. apply ub_here. rewrite <- T in G2.
  apply (exp_refused e s1 (n + 2) n (c + 2) r (Some c) rv (Some p)); [lia|vuse K|vval K|split; [lia|split; [vval K|lia]]|lia|exact G2].
Qed.

(** * RSA *)
Lemma ensure_tick e x k s : live s x -> ((len s x < k)%nat -> grant e (tick s) = true) ->
  wp (ensure x k) e s (fun rc s' => rc = 0 /\ tick s' = (tick s + if (len s x <? k)%nat then 1 else 0)%nat).
Proof.
  intros L G. apply wp_bind. apply wp_get; auto. fold (dat s x). fold (len s x). destruct (Nat.ltb_spec (len s x) k) as [H|H].
  - apply wp_bind. apply wp_get; auto. fold (dat s x). fold (len s x). destruct (Nat.leb_spec k (len s x)) as [F|_]; [lia|]. apply wp_bind. apply wp_alloc; intro G'; [|rewrite (G H) in G'; discriminate G'].
    apply wp_bind. apply wp_set. apply wp_ret. split; auto. cbn [put next tick]. lia.
  - apply wp_ret. split; auto.
Qed.
Lemma load_bin_tick e x buf s : live s x -> ((len s x < bin_digs buf)%nat -> grant e (tick s) = true) ->
  wp (load_bin_m x buf) e s (fun rc s' => rc = 0 /\ tick s' = (tick s + more (len s x) buf)%nat).
Proof.
  intros L G. pose proof (load_bin_leaf e x buf s L) as W. unfold load_bin_m, more, bin_digs in *. destruct (skip_zeros buf) as [|b p'] eqn:Eb.
  { clear W. cbn [Nat.ltb Nat.leb]. unfold zero. apply wp_bind, wp_bind. apply wp_get; auto. apply wp_set. apply wp_ret. split; [reflexivity|]. cbn [put tick]. lia. }
  set (p := b :: p') in *. set (i := S ((length p - 1) / 8)) in *. cbv zeta in *. clear W.
  apply wp_check. eapply wp_mono; [apply wp_and; [apply ensure_tick; [exact L|exact G]|apply ensure_ok; exact L]|].
  intros rc s1 ((-> & T1) & (M1 & _ & [(_ & (t & Mx) & L1)|(F & _)])); [|discriminate F]. rewrite Z.eqb_refl. rewrite <- T1.
  assert (Lv : live s1 x) by (unfold live; rewrite Mx; discriminate).
  apply wp_bind. apply wp_set_us; auto. set (s2 := put s1 x _). assert (B2 : becomes s1 x (mkobj (o_sg (ob s1 x)) i (dat s1 x)) s2) by apply becomes_put. clearbody s2.
  assert (E2 : dat s2 x = dat s1 x) by (eapply becomes_dat; eauto).
  destruct (store_down_ok e x p 0 ((Z.of_nat (length p) - 1) mod 8) i s2 []) as (l & _ & _ & W).
  - eapply becomes_live; eauto.
  - unfold len. rewrite E2. exact L1.
  - pose proof (Z.mod_pos_bound (Z.of_nat (length p) - 1) 8 ltac:(lia)). lia.
  - right. eexists. split; [reflexivity|]. assert (1 <= length p)%nat by (unfold p; cbn [length]; lia). rewrite Nat2Z.inj_div, Nat2Z.inj_sub by auto. change (Z.of_nat 8) with 8. change (Z.of_nat 1) with 1.
    pose proof (Z.div_mod (Z.of_nat (length p) - 1) 8 ltac:(lia)). lia.
  - assert (Hm : Z.of_nat (length p - 1) mod 8 = (Z.of_nat (length p) - 1) mod 8) by (f_equal; unfold p; cbn [length]; lia). rewrite Hm.
    apply wp_bind. eapply wp_mono; [exact W|]. intros u s3 (_ & _ & T3). apply wp_ret. split; auto. rewrite T3. destruct B2 as (_ & _ & B2). exact B2.
Qed.
(** a fresh object has eight digits *)
Lemma init_eight e x s : grant e (tick s) = true -> wp (init x) e s (fun rc s' => rc = 0 /\ tick s' = S (tick s) /\ has s' x mzero /\ len s' x = 8%nat /\ (forall y, y <> x -> mem s' y = mem s y)).
Proof.
  intro G. unfold init. apply wp_bind. apply wp_alloc; intro G'; [|congruence]. apply wp_bind. apply wp_set. apply wp_ret.
  split; auto. split; [reflexivity|]. split; [eapply has_intro; [apply put_same|cbn; lia|reflexivity]|]. split; [unfold len, dat; rewrite ob_put; cbn [o_da]; rewrite map_length, seq_length; reflexivity|].
  intros y Hy. rewrite put_other by auto. auto.
Qed.
Lemma dec_block_wild e s n c pad inp sign N E D : calm n s -> (c + 2 < n)%nat -> holding s c [N; E; D] -> 0 < N -> 0 <= E -> 0 <= D -> Z.of_nat (length inp) = count_bytes (ofZ N) -> bytes inp ->
  (forall i, (i < 3 + more 8 inp)%nat -> grant e (tick s + i) = true) -> grant e (tick s + (3 + more 8 inp)) = false -> rsa_dec_block_m n c pad inp sign e s = UB.
Proof.
  intros C Lc (HN & HE & HD & _) PN PE PD HL HB G1 G2. replace (S c) with (c + 1)%nat in HE by lia. replace (S (S c)) with (c + 2)%nat in HD by lia.
  unfold rsa_dec_block_m. rewrite (bind_at _ _ _ _ _ _ (peek_at _ _ _ _ HN)). rewrite HL, Z.eqb_refl. cbn [negb].
  assert (W : wp (alloc 0) e s (fun b s' => b <> None /\ s' = next s)).
  { apply wp_alloc; intro G'; [split; [discriminate|reflexivity]|]. specialize (G1 0%nat ltac:(lia)). rewrite Nat.add_0_r in G1. congruence. }
  apply wp_ok in W. destruct W as (b & s1 & E1 & NB & ->). unfold room. rewrite (bind_at _ _ _ _ _ _ E1). destruct b as [b|]; [|contradiction]. clear NB E1.
  set (s1 := next s). assert (T1 : tick s1 = S (tick s)) by reflexivity. assert (M1 : mem s1 = mem s) by reflexivity. clearbody s1.
  assert (W : wp (init_list [] (locals n 2)) e s1 (fun rc s' => rc = 0 /\ tick s' = (tick s + 3)%nat /\ has s' n mzero /\ has s' (n + 1) mzero /\ len s' n = 8%nat /\ (forall y, y <> n -> y <> (n + 1)%nat -> mem s' y = mem s y))).
  { unfold locals. cbn [seq init_list]. apply wp_bind. eapply wp_mono; [apply init_eight; rewrite T1, <- Nat.add_1_r; apply G1; lia|]. intros rc s2 (-> & T2 & H2 & L2 & F2). rewrite Z.eqb_refl.
    apply wp_bind. eapply wp_mono; [apply init_eight; rewrite T2, T1; replace (S (S (tick s))) with (tick s + 2)%nat by lia; apply G1; lia|]. intros rc s3 (-> & T3 & H3 & L3 & F3). rewrite Z.eqb_refl. apply wp_ret.
    replace (S n) with (n + 1)%nat in * by lia. split; auto. split; [lia|]. split; [eapply has_same; [apply F3; lia|exact H2]|]. split; [exact H3|]. split; [unfold len, dat, ob in *; rewrite F3 by lia; exact L2|].
    intros y N1 N2. rewrite F3, F2 by auto. rewrite M1. reflexivity. }
  apply wp_ok in W. destruct W as (rc & s2 & E2 & -> & T2 & H2 & H2' & L2 & F2). unfold need at 1. rewrite (bind_at _ _ _ _ _ _ E2). rewrite Z.eqb_refl. clear E2.
  unfold closing. apply ub_here.
  assert (W : wp (load_bin_m n inp) e s2 (fun rc s' => rc = 0 /\ tick s' = (tick s + (3 + more 8 inp))%nat /\ has s' n (ofZ (be_val inp)) /\ (forall y, y <> n -> mem s' y = mem s2 y))).
  { eapply wp_mono; [apply wp_and; [apply (load_bin_tick e n inp s2); [eapply has_live; exact H2|]|apply load_bin_leaf; eapply has_live; exact H2]|].
    - rewrite L2, T2. intro LT. unfold more in G1. rewrite (proj2 (Nat.ltb_lt _ _) LT) in G1. apply G1. lia.
    - rewrite L2, T2. assert (Es : o_sg (ob s2 n) = false) by (destruct (has_elim _ _ _ H2) as (_ & _ & X & _); exact X). rewrite Es, load_bin_ofZ by exact HB.
      intros rc s3 ((-> & T3) & (M3 & _ & [(_ & H3 & _)|(F & _)])); [|discriminate F]. split; auto. split; [lia|]. auto. }
  apply wp_ok in W. destruct W as (rc & s3 & E3 & -> & T3 & H3 & F3). unfold need at 1. rewrite (bind_at _ _ _ _ _ _ E3). rewrite Z.eqb_refl. clear E3.
  unfold need. apply ub_here. rewrite <- T3 in G2.
  assert (K : forall x v, (x < n)%nat -> has s x v -> has s3 x v) by (intros x v Lx; apply has_same; rewrite F3, F2 by lia; reflexivity).
  apply (exp_refused e s3 (n + 2) (n + 1) n (if sign then c + 1 else c + 2)%nat (Some c) (if sign then E else D) (Some N)).
  - lia.
  - exists mzero. eapply has_same; [apply F3; lia|exact H2'].
  - destruct sign; apply K; auto; lia.
  - split; [lia|split; [apply K; [lia|exact HN]|lia]].
  - destruct sign; lia.
  - exact G2.
Qed.
Theorem rsa_decrypt_wild e s n c pad inp sign N E D : calm n s -> (c + 2 < n)%nat -> holding s c [N; E; D] -> 0 < N -> 0 <= E -> 0 <= D -> count_bytes (ofZ N) <= Z.of_nat (length inp) -> bytes inp ->
  let j := (4 + more 8 (firstn (Z.to_nat (count_bytes (ofZ N))) inp))%nat in
  (forall i, (i < j)%nat -> grant e (tick s + i) = true) -> grant e (tick s + j) = false -> rsa_decrypt_gen_m n c pad inp sign e s = UB.
Proof.
  intros C Lc H PN PE PD HL HB j G1 G2. pose proof (cb_nonneg N) as CN. pose proof (proj1 H) as HN. unfold rsa_decrypt_gen_m. destruct inp as [|b inp]; [reflexivity|].
  set (l := b :: inp) in *. assert (Ll : (0 < length l)%nat) by (unfold l; cbn; lia). replace (length l) with (S (length l - 1)) by lia. unfold onward at 1. apply ub_here.
  cbn [rsa_dec_loop_m]. unfold l at 1. cbv iota. fold l. rewrite (bind_at _ _ _ _ _ _ (peek_at _ _ _ _ HN)). cbv zeta.
  destruct (Nat.ltb_spec (length l) (Z.to_nat (count_bytes (ofZ N)))) as [F|_]; [lia|].
  assert (W : wp (alloc 0) e s (fun b s' => b <> None /\ s' = next s)).
  { apply wp_alloc; intro G'; [split; [discriminate|reflexivity]|]. specialize (G1 0%nat ltac:(unfold j; lia)). rewrite Nat.add_0_r in G1. congruence. }
  apply wp_ok in W. destruct W as (b' & s1 & E1 & NB & ->). unfold room. rewrite (bind_at _ _ _ _ _ _ E1). destruct b' as [b'|]; [|contradiction]. clear NB E1.
  unfold onward. apply ub_here. apply (dec_block_wild e (next s) n c pad _ sign N E D); auto.
  - rewrite firstn_length_le by lia. lia.
  - apply bytes_firstn. exact HB.
  - intros i Hi. replace (tick (next s) + i)%nat with (tick s + S i)%nat by (cbn [next tick]; lia). apply G1. unfold j. lia.
  - replace (tick (next s) + _)%nat with (tick s + j)%nat by (unfold j; cbn [next tick]; lia). exact G2.
Qed.
