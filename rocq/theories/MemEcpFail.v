(** The curve code when an allocation is refused. *)
From Verif Require Import Base Lists Bits MpiModel MpiSpec MpiDigits MpiMulModel MpiCanon MpiDivModel MpiDiv MpiAlgModel MpiAlg MpiAlg2 Pk NumTh EcpModel EcSpec EcZ EcpSpec Ecp EcpMul MemModel MemMulModel MemDivModel MemAlgModel MemSpec Mem MemOps MemShift MemLeaf MemMul MemSim MemToom MemMulSafe MemDiv MemDivSafe MemLoc MemGcd MemExp MemInv MemEcpModel MemEcpSpec MemEcp MemEcpMul MemExp.


Lemma init_granted e x s : grant e (tick s) = true -> wp (init x) e s (fun rc s' => rc = 0 /\ tick s' = S (tick s) /\
  live s' x /\ (8 <= len s' x)%nat /\ (forall y, y <> x -> mem s' y = mem s y)).
Proof.
  intro G. unfold init. apply wp_bind. apply wp_alloc; intro G'; [|congruence]. apply wp_bind. apply wp_set. apply wp_ret.
  split; auto. split; [reflexivity|]. split; [unfold live; rewrite put_same; discriminate|]. split; [unfold len, dat; rewrite ob_put; cbn [o_da]; rewrite map_length, seq_length; lia|].
  intros y Hy. rewrite put_other by auto. auto.
Qed.
Lemma init_refused e x s : grant e (tick s) = false -> wp (init x) e s (fun rc s' => rc = -1 /\ tick s' = S (tick s) /\ mem s' x = None /\
  (forall y, y <> x -> mem s' y = mem s y)).
Proof.
  intro G. unfold init. apply wp_bind. apply wp_alloc; intro G'; [congruence|]. unfold wp, cbind, set, ret. split; auto. split; [reflexivity|].
  split; [cbn [mem]; rewrite Nat.eqb_refl; reflexivity|]. intros y Hy. cbn [mem]. rewrite (proj2 (Nat.eqb_neq y x) Hy). auto.
Qed.
Lemma set_int_room e x v s : live s x -> (8 <= len s x)%nat -> - 2 ^ 63 < v < 2 ^ 63 ->
  wp (MemModel.set_int x v) e s (fun rc s' => tick s' = tick s /\ live s' x /\ (8 <= len s' x)%nat /\ (forall y, y <> x -> mem s' y = mem s y)).
Proof.
  intros L H V. unfold MemModel.set_int, grow. apply wp_check. apply wp_bind. apply wp_get; auto. change (o_da (ob s x)) with (dat s x). fold (len s x).
  destruct (Nat.leb_spec 1 (len s x)) as [_|F]; [|lia]. apply wp_ret. rewrite Z.eqb_refl. destruct (Z.eqb_spec v (- 2 ^ 63)) as [F|_]; [lia|].
  apply wp_bind. apply wp_set_sg; auto. set (s1 := put _ _ _). assert (L1 : live s1 x) by (unfold live, s1; rewrite put_same; discriminate).
  apply wp_bind. apply wp_set_us; auto. set (s2 := put _ _ _). assert (L2 : live s2 x) by (unfold live, s2; rewrite put_same; discriminate).
  assert (E2 : len s2 x = len s x) by (unfold len, dat, s2; rewrite ob_put; cbn [o_da]; unfold dat, s1; rewrite ob_put; reflexivity).
  assert (M2 : forall y, y <> x -> mem s2 y = mem s y) by (intros y Hy; unfold s2, s1; rewrite !put_other by auto; auto).
  destruct (v =? 0); [apply wp_ret; split; [reflexivity|]; split; auto; split; [lia|auto]|].
  apply wp_bind. apply wp_wr; [auto|lia|]. unfold wput. set (s3 := put _ _ _). assert (L3 : live s3 x) by (unfold live, s3; rewrite put_same; discriminate).
  assert (E3 : len s3 x = len s x) by (unfold len at 1, dat, s3; rewrite ob_put; cbn [o_da]; rewrite upd_length; exact E2).
  apply wp_bind. apply wp_set_us; auto. apply wp_ret. split; [reflexivity|]. split; [unfold live; rewrite put_same; discriminate|].
  split; [unfold len, dat; rewrite ob_put; cbn [o_da]; fold (len s3 x); unfold len, dat in *; lia|]. intros y Hy. rewrite put_other by auto. unfold s3. rewrite put_other by auto. auto.
Qed.
Lemma pt_init_granted e n s : grant e (tick s) = true -> grant e (S (tick s)) = true -> grant e (S (S (tick s))) = true ->
  wp (pt_init_m n) e s (fun rc s' => rc = 0 /\ tick s' = S (S (S (tick s))) /\ (forall i, (i < 3)%nat -> live s' (n + i)) /\
  (forall y, ~ (n <= y < n + 3)%nat -> mem s' y = mem s y)).
Proof.
  intros G0 G1 G2. unfold pt_init_m, coords. apply wp_check. cbn [init_list].
  apply wp_bind. eapply wp_mono; [apply init_granted; exact G0|]. intros rc s1 (-> & T1 & L1 & R1 & F1). rewrite Z.eqb_refl. rewrite <- T1 in G1.
  apply wp_bind. eapply wp_mono; [apply init_granted; exact G1|]. intros rc s2 (-> & T2 & L2 & R2 & F2). rewrite Z.eqb_refl. rewrite <- T1, <- T2 in G2.
  apply wp_bind. eapply wp_mono; [apply init_granted; exact G2|]. intros rc s3 (-> & T3 & L3 & R3 & F3). rewrite Z.eqb_refl. apply wp_ret. rewrite Z.eqb_refl.
  assert (A1 : live s3 n /\ (8 <= len s3 n)%nat). { unfold live, len, dat, ob in *. rewrite F3, F2 by lia. auto. }
  assert (A2 : live s3 (n + 1) /\ (8 <= len s3 (n + 1))%nat). { unfold live, len, dat, ob in *. rewrite F3 by lia. auto. }
  unfold set_zero_m. apply wp_bind, wp_bind. eapply wp_mono; [apply set_int_room; [apply A1|apply A1|lia]|]. intros ? s4 (T4 & L4 & R4 & F4).
  assert (A3 : live s4 (n + 1) /\ (8 <= len s4 (n + 1))%nat). { unfold live, len, dat, ob in *. rewrite F4 by lia. auto. }
  apply wp_bind. eapply wp_mono; [apply set_int_room; [apply A3|apply A3|lia]|]. intros ? s5 (T5 & L5 & R5 & F5).
  assert (A4 : live s5 (n + 2) /\ (8 <= len s5 (n + 2))%nat). { unfold live, len, dat, ob in *. rewrite F5, F4 by lia. auto. }
  apply wp_bind. eapply wp_mono; [apply set_int_room; [apply A4|apply A4|lia]|]. intros ? s6 (T6 & L6 & R6 & F6).
  apply wp_ret, wp_ret. split; auto. split; [lia|]. split.
  - intros [|[|[|i]]] Hi; [| |exact L6|lia]; rewrite ?Nat.add_0_r; unfold live in *; rewrite F6 by lia; [rewrite F5 by lia; exact L4|exact L5].
  - intros y Hy. rewrite F6, F5, F4, F3, F2, F1 by lia. auto.
Qed.

(** The window refused: return code 0, and the destination as it was. *)
Theorem mul_lost e s n pr x k g P : calm n s -> (x + 2 < n)%nat -> point s x P -> P <> None ->
  grant e (tick s) = true -> grant e (S (tick s)) = true -> grant e (S (S (tick s))) = true -> grant e (S (S (S (tick s)))) = false ->
  wp (ecp_mul_m n pr x k g) e s (fun rc s' => rc = 0 /\ calm n s' /\ (forall y, (y < n)%nat -> mem s' y = mem s y)).
Proof.
  intros C Lx (_ & _ & HZ) NP G0 G1 G2 G3. unfold ecp_mul_m, pt_zero_m. apply wp_bind, wp_bind. eapply wp_peek; [exact HZ|]. apply wp_ret.
  destruct P as [[px py]|]; [|contradiction]. cbn [ept ez]. rewrite is_zero_ofZ. change (1 =? 0) with false. cbv iota.
  apply wp_check. eapply wp_mono; [apply pt_init_granted; auto|]. intros rc s1 (-> & T1 & L1 & F1). rewrite Z.eqb_refl. rewrite <- T1 in G3.
  apply wp_finally. apply wp_bind. apply wp_alloc; intro G'; [congruence|]. apply wp_ret.
  unfold pt_clear_m. rewrite coords_locals. eapply wp_mono; [apply clear_list_ok|].
  { intros y Hy. apply in_locals in Hy. unfold live. cbn [mem]. replace y with (n + (y - n))%nat by lia. apply L1. lia. }
  intros _ s2 (A1 & A2 & A3). unfold next in *. cbn [mem] in *. split; auto. split.
  - intros y Hy. destruct (in_dec Nat.eq_dec y (locals n 3)) as [I|I]; [right; apply A1; auto|]. rewrite A2 by auto. rewrite in_locals in I. rewrite F1 by lia. apply C. auto.
  - intros y Hy. rewrite A2 by (rewrite in_locals; lia). apply F1. lia.
Qed.

(** * Signature and verification *)
Theorem sign_lost e s n g d r sg bin inp : calm n s ->
  grant e (tick s) = true -> grant e (S (tick s)) = true -> grant e (S (S (tick s))) = false ->
  wp (ecdsa_sign_m n g d r sg bin inp) e s (fun rc s' => rc = 0 /\ calm n s' /\ (forall y, (y < n)%nat -> mem s' y = mem s y)).
Proof.
  intros C G0 G1 G2. unfold ecdsa_sign_m, locals. cbn [seq init_list]. apply wp_check.
  apply wp_bind. eapply wp_mono; [apply init_granted; exact G0|]. intros rc s1 (-> & T1 & L1 & R1 & F1). rewrite Z.eqb_refl. rewrite <- T1 in G1.
  apply wp_bind. eapply wp_mono; [apply init_granted; exact G1|]. intros rc s2 (-> & T2 & L2 & R2 & F2). rewrite Z.eqb_refl. rewrite <- T1, <- T2 in G2.
  apply wp_ret. rewrite Z.eqb_refl. apply wp_bind. apply wp_finally. apply wp_check. unfold pt_init_m, coords. cbn [init_list]. apply wp_check.
  apply wp_bind. eapply wp_mono; [apply (init_refused e (n + 2) s2); exact G2|]. intros rc s3 (-> & T3 & M3 & F3). change (-1 =? 0) with false. cbv iota. cbn [rev clear_list].
  apply wp_bind, wp_ret, wp_ret. change (-1 =? 0) with false. cbv iota.
  eapply wp_mono; [apply (clear_list_ok e [n; S n])|].
  { intros y [<-|[<-|[]]]; unfold live in *; rewrite F3 by lia; [rewrite F2 by lia; exact L1|exact L2]. }
  intros _ s4 (A1 & A2 & A3). apply wp_ret. split; auto. split.
  - intros y Hy. destruct (in_dec Nat.eq_dec y [n; S n]) as [I|I]; [right; apply A1; exact I|]. rewrite A2 by exact I. destruct (Nat.eq_dec y (n + 2)) as [->|Ny]; [left; exact M3|].
    rewrite F3, F2, F1 by (try (intros ->; apply I; cbn; auto); auto). apply C. auto.
  - intros y Hy. rewrite A2 by (intros [<-|[<-|[]]]; lia). rewrite F3, F2, F1 by lia. auto.
Qed.

Lemma bind_at {A C} (m : cmd A) (f : A -> cmd C) e s a s' : m e s = Ok (a, s') -> cbind m f e s = f a e s'.
Proof. intro E. unfold cbind. rewrite E. reflexivity. Qed.
Lemma check_at m f e s rc s' : m e s = Ok (rc, s') -> rc <> 0 -> check m f e s = Ok (rc, s').
Proof. intros E N. unfold check. rewrite (bind_at _ _ _ _ _ _ E). rewrite (proj2 (Z.eqb_neq rc 0) N). reflexivity. Qed.
Lemma finally_wild m c e s rc s' : m e s = Ok (rc, s') -> c e s' = UB -> finally m c e s = UB.
Proof. intros E U. unfold finally. rewrite (bind_at _ _ _ _ _ _ E). unfold cbind. rewrite U. reflexivity. Qed.
Lemma clear_wild e l : forall s x, In x l -> mem s x = None -> clear_list l e s = UB.
Proof.
  induction l as [|y l IH]; intros s x I M; [destruct I|]. cbn [clear_list]. unfold clear, cbind, get, set. destruct (mem s y) as [o|] eqn:E; [|reflexivity].
  apply (IH _ x); [destruct I as [->|I]; [congruence|exact I]|]. cbn [mem]. destruct (Nat.eqb_spec x y) as [->|N]; [congruence|exact M].
Qed.
(** The last coordinate of the first point refused: the clean-up touches an
    object that was never initialised. *)
Theorem verify_wild e s n g q r sg inp : (forall i, (i < 4)%nat -> grant e (tick s + i) = true) -> grant e (tick s + 4) = false -> mem s (n + 5) = None ->
  ecdsa_verify_m n g q r sg inp e s = UB.
Proof.
  intros G G4 M.
  assert (W : wp (init_list [] (locals n 2)) e s (fun rc s' => rc = 0 /\ tick s' = (tick s + 2)%nat /\ live s' n /\ live s' (n + 1) /\ (forall y, y <> n -> y <> (n + 1)%nat -> mem s' y = mem s y))).
  { unfold locals. cbn [seq init_list].
    apply wp_bind. eapply wp_mono; [apply init_granted; rewrite <- (Nat.add_0_r (tick s)); apply G; lia|]. intros rc s1 (-> & T1 & L1 & R1 & F1). rewrite Z.eqb_refl.
    apply wp_bind. eapply wp_mono; [apply init_granted; rewrite T1, <- Nat.add_1_r; apply G; lia|]. intros rc s2 (-> & T2 & L2 & R2 & F2). rewrite Z.eqb_refl. apply wp_ret.
    split; auto. split; [lia|]. replace (S n) with (n + 1)%nat in * by lia. split; [unfold live in *; rewrite F2 by lia; auto|]. split; auto. intros y N1 N2. rewrite F2, F1 by auto. auto. }
  apply wp_ok in W. destruct W as (rc & s2 & E2 & -> & T2 & L2 & L2' & F2).
  unfold ecdsa_verify_m, check. rewrite (bind_at _ _ _ _ _ _ E2). rewrite Z.eqb_refl.
  assert (W : wp (pt_init_list [] [(n + 2)%nat; (n + 5)%nat]) e s2 (fun rc s' => rc = -1 /\ mem s' (n + 2) = Some void /\ mem s' (n + 2 + 1) = Some void /\ live s' n /\ live s' (n + 1) /\ mem s' (n + 5) = None)).
  { cbn [pt_init_list]. unfold pt_init_m, coords. apply wp_bind. apply wp_check. cbn [init_list].
    apply wp_bind. eapply wp_mono; [apply init_granted; rewrite T2; apply G; lia|]. intros rc s3 (-> & T3 & L3 & R3 & F3). rewrite Z.eqb_refl.
    apply wp_bind. eapply wp_mono; [apply init_granted; rewrite T3, T2, <- Nat.add_succ_r; apply G; lia|]. intros rc s4 (-> & T4 & L4 & R4 & F4). rewrite Z.eqb_refl.
    apply wp_bind. eapply wp_mono; [apply init_refused; rewrite T4, T3, T2, <- !Nat.add_succ_r; apply G4|]. intros rc s5 (-> & T5 & M5 & F5). change (-1 =? 0) with false. cbv iota. cbn [rev app].
    apply wp_bind. eapply wp_mono; [apply clear_list_ok|].
    { intros y [<-|[<-|[]]]; unfold live in *; rewrite F5 by lia; [rewrite F4 by lia; exact L3|exact L4]. }
    intros _ s6 (A1 & A2 & A3). apply wp_ret. change (-1 =? 0) with false. cbv iota. apply wp_bind, wp_ret, wp_ret. split; auto. split; [apply A1; cbn; auto|]. split; [apply A1; cbn; auto|].
    unfold live in *. rewrite !A2 by (intros [I|[I|[]]]; lia). rewrite !F5, !F4, !F3 by lia. split; auto. split; auto. rewrite F2 by lia. exact M. }
  apply wp_ok in W. destruct W as (rc & s3 & E3 & -> & V1 & V2 & L3 & L3' & M3).
  eapply finally_wild; [apply check_at; [exact E3|discriminate]|]. apply (clear_wild e _ s3 (n + 5)); [|exact M3]. right; right; right; right; left; reflexivity.
Qed.

(** * Contexts *)
Lemma clear_one e d s : live s d -> wp (clear d) e s (fun _ s' => (forall x, In x [d] -> mem s' x = Some void) /\ (forall x, ~ In x [d] -> mem s' x = mem s x) /\ tick s' = tick s).
Proof.
  intro L. unfold clear. apply wp_bind. apply wp_get; auto. apply wp_set. split; [intros x [<-|[]]; apply put_same|]. split; [|reflexivity].
  intros x N. apply put_other. intros ->. apply N. left. auto.
Qed.
Lemma set_zero_any e s n : (forall i, (i < 3)%nat -> live s (n + i) /\ (1 <= len s (n + i))%nat) ->
  wp (set_zero_m n) e s (fun _ s' => point s' n None /\ (tick s <= tick s')%nat /\ (forall y, ~ (n <= y < n + 3)%nat -> mem s' y = mem s y)).
Proof.
  intro H. unfold set_zero_m. destruct (H 0%nat) as (L0 & R0); [lia|]. rewrite Nat.add_0_r in L0, R0.
  apply wp_bind. eapply wp_mono; [apply set_int_fits; [exact L0|exact R0|lia]|]. intros rc s1 (-> & F1 & T1 & [(_ & V1 & _)|(F & _)]); [|discriminate F].
  destruct (H 1%nat) as (L1 & R1); [lia|].
  apply wp_bind. eapply wp_mono; [apply set_int_fits; [unfold live; rewrite F1 by lia; exact L1|unfold len, dat, ob in *; rewrite F1 by lia; exact R1|lia]|]. intros rc s2 (-> & F2 & T2 & [(_ & V2 & _)|(F & _)]); [|discriminate F].
  destruct (H 2%nat) as (L2 & R2); [lia|].
  apply wp_bind. eapply wp_mono; [apply set_int_fits; [unfold live; rewrite F2, F1 by lia; exact L2|unfold len, dat, ob in *; rewrite F2, F1 by lia; exact R2|lia]|]. intros rc s3 (-> & F3 & T3 & [(_ & V3 & _)|(F & _)]); [|discriminate F].
  apply wp_ret. split; [split; [|split]|split; [lia|intros y Hy; rewrite F3, F2, F1 by lia; auto]].
  - eapply has_same; [rewrite F3, F2 by lia; reflexivity|exact V1].
  - eapply has_same; [rewrite F3 by lia; reflexivity|exact V2].
  - exact V3.
Qed.
Lemma pt_init_any e n s : wp (pt_init_m n) e s (fun rc s' => (forall y, ~ (n <= y < n + 3)%nat -> mem s' y = mem s y) /\ (tick s <= tick s')%nat /\
  (rc = 0 /\ point s' n None \/ rc = -1 /\ starved e s s' /\ (forall y, (n <= y < n + 3)%nat -> mem s' y = None \/ mem s' y = Some void \/ mem s' y = mem s y))).
Proof.
  unfold pt_init_m. rewrite coords_locals. apply wp_check. eapply wp_mono; [apply init_list_ok; [apply seq_NoDup|intros x []]|].
  intros rc s1 (M & T & [(-> & V & _)|(-> & S & _ & U)]).
  2:{ change (-1 =? 0) with false. cbv iota. split; [intros y Hy; apply M; [rewrite in_locals; auto|auto]|]. split; auto. right. split; auto. split; auto. intros y Hy. apply U. apply in_locals. lia. }
  rewrite Z.eqb_refl. apply wp_bind. eapply wp_mono; [apply (set_zero_any e s1 n)|].
  { intros i Hi. split; [eapply has_live; apply V; apply in_locals; lia|]. assert (8 <= len s1 (n + i))%nat by (apply V; apply in_locals; lia). lia. }
  intros _ s2 (P2 & T2 & F2). apply wp_ret. split; [intros y Hy; rewrite F2 by auto; apply M; [rewrite in_locals; auto|auto]|]. split; [lia|]. left. auto.
Qed.
Lemma in_grp g x : In x (grp_objs g) <-> (g <= x < g + 7)%nat.
Proof. unfold grp_objs. cbn [In]. lia. Qed.
Lemma nodup_grp g : NoDup (grp_objs g).
Proof. unfold grp_objs. repeat (constructor; [cbn [In]; lia|]). constructor. Qed.
Lemma grp_init_any e g s : wp (grp_init_m g) e s (fun rc s' => (forall y, ~ (g <= y < g + 7)%nat -> mem s' y = mem s y) /\ (tick s <= tick s')%nat /\
  (rc = 0 /\ has s' g mzero /\ has s' (g + 1) mzero /\ has s' (g + 2) mzero /\ has s' (g + 6) mzero /\ point s' (g + 3) None \/
   rc = -1 /\ starved e s s' /\ (forall y, (g <= y < g + 7)%nat -> mem s' y = None \/ mem s' y = Some void \/ mem s' y = mem s y))).
Proof.
  unfold grp_init_m. apply wp_check. eapply wp_mono; [apply init_list_ok; [apply nodup_grp|intros x []]|].
  intros rc s1 (M & T & [(-> & V & _)|(-> & S & _ & U)]).
  2:{ change (-1 =? 0) with false. cbv iota. split; [intros y Hy; apply M; [rewrite in_grp; auto|auto]|]. split; auto. right. split; auto. split; auto. intros y Hy. apply U. apply in_grp. lia. }
  rewrite Z.eqb_refl. apply wp_bind. eapply wp_mono; [apply (set_zero_any e s1 (g + 3))|].
  { intros i Hi. split; [eapply has_live; apply V; apply in_grp; lia|]. assert (8 <= len s1 (g + 3 + i))%nat by (apply V; apply in_grp; lia). lia. }
  intros _ s2 (P2 & T2 & F2). apply wp_ret. split; [intros y Hy; rewrite F2 by lia; apply M; [rewrite in_grp; auto|auto]|]. split; [lia|]. left. split; auto.
  repeat (split; [eapply has_same; [apply F2; lia|apply V; apply in_grp; lia]|]). exact P2.
Qed.
Theorem ecdsa_init_any e s g d q : ctx_apart g d q -> wp (ecdsa_init_m g d q) e s (fun rc s' => (forall y, ~ in_ctx g d q y -> mem s' y = mem s y) /\
  (rc = 0 /\ ctx_zero s' g d q \/
   rc = -1 /\ starved e s s' /\ (forall y, in_ctx g d q y -> mem s' y = None \/ mem s' y = Some void \/ mem s' y = mem s y))).
Proof.
  intros (A1 & A2 & A3). unfold ecdsa_init_m. apply wp_check. eapply wp_mono; [apply init_ok|]. intros rc s1 (F1 & T1 & D1).
  destruct D1 as [(-> & V1 & _)|(-> & S1 & M1)].
  2:{ change (-1 =? 0) with false. cbv iota. split; [intros y Hy; apply F1; intros ->; apply Hy; unfold in_ctx; auto|]. right. split; auto. split; auto. intros y Hy. destruct (Nat.eq_dec y d) as [->|N]; auto. }
  rewrite Z.eqb_refl. apply wp_bind. apply wp_check. eapply wp_mono; [apply pt_init_any|]. intros rc s2 (F2 & T2 & D2).
  destruct D2 as [(-> & V2)|(-> & S2 & M2)].
  2:{ change (-1 =? 0) with false. cbv iota. apply wp_bind. eapply wp_mono; [apply (clear_one e d)|].
    { unfold live. rewrite F2 by auto. eapply has_live. exact V1. }
    intros _ s3 (B1 & B2 & B3). apply wp_ret. assert (N1 : forall y, y <> d -> mem s3 y = mem s2 y) by (intros y Hy; apply B2; intros [I|[]]; auto).
    split.
    - intros y Hy. unfold in_ctx in Hy. rewrite N1, F2, F1 by lia. auto.
    - right. split; auto. split; [destruct S2 as (k & K1 & K2); exists k; split; [lia|auto]|]. intros y Hy. destruct (Nat.eq_dec y d) as [->|N]; [right; left; apply B1; left; auto|]. rewrite N1 by auto.
      destruct (Nat.lt_ge_cases y q) as [L|L]; [rewrite F2, F1 by lia; auto|]. destruct (Nat.lt_ge_cases y (q + 3)) as [L'|L']; [|rewrite F2, F1 by lia; auto]. rewrite <- (F1 y) by auto. apply M2. lia. }
  rewrite Z.eqb_refl. apply wp_bind. eapply wp_mono; [apply grp_init_any|]. intros rc s3 (F3 & T3 & D3).
  assert (Q3 : point s3 q None). { destruct V2 as (P1 & P2 & P3). split; [|split]; eapply has_same; try (apply F3; lia); auto. }
  assert (H3 : has s3 d mzero) by (eapply has_same; [rewrite F3 by auto; apply F2; auto|exact V1]).
  destruct D3 as [(-> & P1 & P2 & P3 & P4 & P5)|(-> & S3 & M3)].
  - rewrite Z.eqb_refl. apply wp_ret. rewrite Z.eqb_refl. apply wp_ret. split.
    + intros y Hy. unfold in_ctx in Hy. rewrite F3, F2, F1 by lia. auto.
    + left. split; auto. repeat (split; auto); apply P5 || apply Q3.
  - change (-1 =? 0) with false. cbv iota. apply wp_bind. unfold pt_clear_m. rewrite coords_locals. eapply wp_mono; [apply clear_list_ok|].
    { intros y Hy. apply in_locals in Hy. destruct Q3 as (X1 & X2 & X3). destruct (Nat.eq_dec y q) as [->|]; [eapply has_live; exact X1|]. destruct (Nat.eq_dec y (q + 1)) as [->|]; [eapply has_live; exact X2|].
      replace y with (q + 2)%nat by lia. eapply has_live; exact X3. }
    intros _ s4 (B1 & B2 & B3). apply wp_ret. change (-1 =? 0) with false. cbv iota. apply wp_bind. eapply wp_mono; [apply (clear_one e d)|].
    { unfold live. rewrite B2 by (rewrite in_locals; lia). eapply has_live. exact H3. }
    intros _ s5 (C1 & C2 & C3). apply wp_ret. assert (N1 : forall y, y <> d -> mem s5 y = mem s4 y) by (intros y Hy; apply C2; intros [I|[]]; auto).
    split.
    + intros y Hy. unfold in_ctx in Hy. rewrite N1, B2, F3, F2, F1 by (rewrite ?in_locals; lia). auto.
    + right. split; auto. split; [destruct S3 as (k & K1 & K2); exists k; split; [lia|auto]|]. intros y Hy. destruct (Nat.eq_dec y d) as [->|N]; [right; left; apply C1; left; auto|]. rewrite N1 by auto.
      destruct (in_dec Nat.eq_dec y (locals q 3)) as [I|I]; [right; left; apply B1; exact I|]. rewrite B2 by exact I. rewrite in_locals in I. unfold in_ctx in Hy.
      assert (E : mem s2 y = mem s y) by (rewrite F2, F1 by lia; auto). rewrite <- E. apply M3. lia.
Qed.
Theorem ecdsa_clear_any e s g d q : ctx_apart g d q -> (forall y, in_ctx g d q y -> live s y) ->
  wp (ecdsa_clear_m g d q) e s (fun _ s' => (forall y, in_ctx g d q y -> mem s' y = Some void) /\ (forall y, ~ in_ctx g d q y -> mem s' y = mem s y)).
Proof.
  intros (A1 & A2 & A3) L. unfold ecdsa_clear_m. apply wp_bind. eapply wp_mono; [apply clear_one; apply L; unfold in_ctx; auto|]. intros _ s1 (D1 & D2 & _).
  assert (V1 : mem s1 d = Some void) by (apply D1; left; auto). assert (F1 : forall y, y <> d -> mem s1 y = mem s y) by (intros y Hy; apply D2; intros [I|[]]; auto).
  apply wp_bind. unfold pt_clear_m. rewrite coords_locals. eapply wp_mono; [apply clear_list_ok|].
  { intros y Hy. apply in_locals in Hy. unfold live. rewrite F1 by lia. apply L. unfold in_ctx. lia. }
  intros _ s2 (B1 & B2 & _). eapply wp_mono; [apply clear_list_ok|].
  { intros y Hy. apply in_grp in Hy. unfold live. rewrite B2 by (rewrite in_locals; lia). rewrite F1 by lia. apply L. unfold in_ctx. lia. }
  intros _ s3 (C1 & C2 & _). split.
  - intros y Hy. destruct (in_dec Nat.eq_dec y (grp_objs g)) as [I|I]; [apply C1; auto|]. rewrite C2 by auto. destruct (in_dec Nat.eq_dec y (locals q 3)) as [J|J]; [apply B1; auto|]. rewrite B2 by auto.
    rewrite in_grp in I. rewrite in_locals in J. unfold in_ctx in Hy. replace y with d by lia. exact V1.
  - intros y Hy. unfold in_ctx in Hy. rewrite C2 by (rewrite in_grp; lia). rewrite B2 by (rewrite in_locals; lia). apply F1. lia.
Qed.
