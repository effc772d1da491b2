(** Memory-level ECDH and ECDSA, while no allocation is refused. *)
From Coq Require Import Znumtheory.
From Verif Require Import Base Lists BytesSpec Bytes Bits MpiModel MpiSpec MpiDigits MpiMulModel MpiCanon MpiDivModel MpiDiv MpiAlgModel MpiAlg MpiAlg2 MpiIOModel MpiIO MpiTextSpec MpiRand Pk NumTh EcpModel EcSpec EcZ EcpSpec Ecp EcpMul EcPk MemModel MemMulModel MemDivModel MemAlgModel MemSpec Mem MemOps MemShift MemLeaf MemMul MemSim MemToom MemMulSafe MemDiv MemDivSafe MemLoc MemGcd MemExp MemInv MemEcpModel MemEcpSpec MemEcp MemEcpMul MemBin.
Ltac Zify.zify_post_hook ::= idtac.

(** * Points among the locals *)
Definition upd3 (V : list mpi) (i : nat) (P : ecpoint) : list mpi := upd (upd (upd V i (ex (ept P))) (i + 1) (ey (ept P))) (i + 2) (ez (ept P)).
Lemma vloc_result n V s0 s i P rc s' m : vloc n V s0 s -> (i + 2 < length V)%nat -> m = (n + length V)%nat -> result m (n + i) P s rc s' -> rc = 0 /\ vloc n (upd3 V i P) s0 s'.
Proof.
  intros (C & F & T & H) I -> (-> & (V1 & V2 & V3) & C' & T' & F'). split; auto. unfold upd3. split; [rewrite !upd_length; auto|]. split; [intros x Hx; rewrite F' by lia; auto|]. split; [lia|].
  rewrite !upd_length. intros j Hj. rewrite !upd_nth by (rewrite ?upd_length; lia).
  destruct (Nat.eqb_spec j (i + 2)) as [->|N2]; [rewrite Nat.add_assoc; exact V3|]. destruct (Nat.eqb_spec j (i + 1)) as [->|N1]; [rewrite Nat.add_assoc; exact V2|].
  destruct (Nat.eqb_spec j i) as [->|N0]; [exact V1|]. eapply has_same; [apply F'; lia|auto].
Qed.
Lemma vloc_pt n V s0 s x P : vloc n V s0 s -> (x + 2 < n)%nat -> point s0 x P -> point s x P.
Proof. intros (_ & F & _) L H. eapply point_same; [|exact H]. intros; apply F; lia. Qed.
Lemma vloc_grp n V s0 s g p am b G N : vloc n V s0 s -> (g + 6 < n)%nat -> group s0 g p am b G N -> group s g p am b G N.
Proof. intros (_ & F & _) L H. eapply group_same; [|exact H]. intros; apply F; lia. Qed.
Lemma vloc_use_pt n V s0 s i : vloc n V s0 s -> (i + 2 < length V)%nat -> usable_pt s (n + i).
Proof. intros (_ & _ & _ & H) L. split; [|split]; rewrite <- ?Nat.add_assoc; eapply has_usable; apply H; lia. Qed.
Local Notation zpt := [ofZ 1; ofZ 1; mzero].
Lemma vloc_pt_init e n V s0 s : (forall k, grant e k = true) -> vloc n V s0 s -> wp (pt_init_m (n + length V)) e s (fun rc s' => rc = 0 /\ vloc n (V ++ zpt) s0 s').
Proof.
  intros G (C & F & T & H). eapply wp_mono; [apply pt_init_ok; exact G|]. intros rc s' (-> & (V1 & V2 & V3) & T' & F'). split; auto.
  assert (L : length (V ++ zpt) = (length V + 3)%nat) by (rewrite app_length; reflexivity). split; [rewrite L; intros y Hy; rewrite F' by lia; apply C; lia|].
  split; [intros x Hx; rewrite F' by lia; auto|]. split; [lia|]. rewrite L. intros i Hi. destruct (Nat.lt_ge_cases i (length V)) as [A|A].
  - rewrite app_nth1 by auto. eapply has_same; [apply F'; lia|auto].
  - rewrite app_nth2 by auto. assert (D : (i = length V \/ i = length V + 1 \/ i = length V + 2)%nat) by lia. destruct D as [-> | [-> | ->]].
    + rewrite Nat.sub_diag. exact V1.
    + replace (length V + 1 - length V)%nat with 1%nat by lia. rewrite Nat.add_assoc. exact V2.
    + replace (length V + 2 - length V)%nat with 2%nat by lia. rewrite Nat.add_assoc. exact V3.
Qed.

Lemma inv_unique N x w w' : 0 < N -> 0 <= w < N -> 0 <= w' < N -> (x * w) mod N = 1 -> (x * w') mod N = 1 -> w = w'.
Proof.
  intros HN H H' E E'. rewrite <- (Z.mod_small w N), <- (Z.mod_small w' N) by lia.
  assert (N <> 1) by (intros ->; rewrite Z.mod_1_r in E; lia).
  transitivity ((w * (x * w')) mod N).
  - rewrite Z.mul_mod, E', Z.mul_1_r, Zmod_mod by lia. reflexivity.
  - replace (w * (x * w')) with (w' * (x * w)) by ring. rewrite Z.mul_mod, E, Z.mul_1_r, Zmod_mod by lia. reflexivity.
Qed.

(** * Verification *)
Definition code (r : res Z) : option Z := match r with Ok c | Err c => Some c | _ => None end.
Lemma verify_mem p a b am G N e st0 n g q r s Q rv sv m pvt : a_rep am a -> ecdsa_domain p a b G N -> (forall k, grant e k = true) -> calm n st0 ->
  (g + 6 < n)%nat -> (q + 2 < n)%nat -> (r < n)%nat -> (s < n)%nat -> group st0 g p am b G N -> point st0 q Q -> has st0 r (ofZ rv) -> has st0 s (ofZ sv) ->
  on_curve p a b Q -> no_order2 p a Q -> bytes m ->
  wp (ecdsa_verify_m n g q r s m) e st0 (fun rc s' => code (ecdsa_verify {| sa_grp := egrp p am b G N; sa_d := pvt; sa_q := ept Q |} (ofZ rv) (ofZ sv) m) = Some rc /\
    calm n s' /\ (forall x, (x < n)%nat -> mem s' x = mem st0 x)).
Proof.
  intros HA HD GR C Lg Lq Lr Ls Hg Hq Hr Hs OQ NQ Hm. pose proof HD as (HG & HP & NG & Pn & L2 & E0). pose proof (domain_odd _ _ _ _ _ HD) as HO.
  pose proof (odd_no_order2 p a b HG G HP HO) as NG2. pose proof Hg as (_ & _ & _ & HGp & HN).
  unfold ecdsa_verify_m. cbv zeta. apply vloc_init0; [exact GR|exact C|]. cbn [repeat]. intros s1 K.
  apply wp_finally. apply wp_check. cbn [pt_init_list]. apply wp_bind.
  eapply wp_mono; [apply (vloc_pt_init e n [mzero; mzero] st0 s1 GR K)|]. clear K. cbn [app]. intros rc s2 (-> & K). cbn [Z.eqb]. apply wp_bind.
  eapply wp_mono; [apply (vloc_pt_init e n _ st0 s2 GR K)|]. clear K. cbn [app]. intros rc s3 (-> & K). cbn [Z.eqb]. apply wp_ret. rewrite Z.eqb_refl.
  (* the clean-up *)
  assert (CL : forall V rc s4, vloc n V st0 s4 -> length V = 8%nat -> code (ecdsa_verify {| sa_grp := egrp p am b G N; sa_d := pvt; sa_q := ept Q |} (ofZ rv) (ofZ sv) m) = Some rc ->
    wp (pt_clear_list [(n + 2)%nat; (n + 5)%nat]) e s4 (fun _ s5 => wp (clear_list [n; n + 1; n + 2; n + 2 + 1; n + 5; n + 5 + 1]%nat) e s5 (fun _ s6 =>
      code (ecdsa_verify {| sa_grp := egrp p am b G N; sa_d := pvt; sa_q := ept Q |} (ofZ rv) (ofZ sv) m) = Some rc /\ calm n s6 /\ (forall x, (x < n)%nat -> mem s6 x = mem st0 x)))).
  { clear s1 s2 s3 K. intros V rc s4 K L8 Ec. eapply wp_mono; [apply clear_win_ok|].
    - intros y [<-|[<-|[]]]; eapply vloc_use_pt; eauto; lia.
    - intros y z [<-|[<-|[]]] [<-|[<-|[]]]; lia.
    - constructor; [intros [F|[]]; lia|constructor; [intros []|constructor]].
    - intros t s5 (T5 & V5 & F5).
      assert (O5 : forall z, (z < n + 2 \/ n + 8 <= z)%nat -> mem s5 z = mem s4 z) by (intros z Hz; apply F5; intros y [<-|[<-|[]]]; lia).
      assert (W5 : forall i, (i < 6)%nat -> mem s5 (n + 2 + i) = Some void).
      { intros i Hi. destruct (Nat.lt_ge_cases i 3) as [A|A]; [apply (V5 (n + 2)%nat); [left; auto|lia]|]. replace (n + 2 + i)%nat with (n + 5 + (i - 3))%nat by lia. apply V5; [right; left; auto|lia]. }
      destruct K as (C4 & M4 & T4 & H4). rewrite L8 in *. eapply wp_mono; [apply clear_list_ok|].
      + assert (Lw : forall i, (i < 8)%nat -> live s5 (n + i)).
        { intros i Hi. unfold live. destruct (Nat.lt_ge_cases i 2) as [A|A]; [rewrite O5 by lia; eapply has_live; apply H4; auto|]. replace (n + i)%nat with (n + 2 + (i - 2))%nat by lia. rewrite W5 by lia. discriminate. }
        intros x Hx. replace x with (n + (x - n))%nat by (cbn [In] in Hx; lia). apply Lw. cbn [In] in Hx. lia.
      + intros t' s6 (A1 & A2 & A3). split; auto. split.
        * intros y Hy. destruct (in_dec Nat.eq_dec y [n; n + 1; n + 2; n + 2 + 1; n + 5; n + 5 + 1]%nat) as [I|I]; [right; apply A1; auto|].
          rewrite A2 by auto. destruct (Nat.lt_ge_cases y (n + 8)) as [A|A].
          -- assert (n + 2 <= y)%nat by (cbn [In] in I; lia). right. replace y with (n + 2 + (y - n - 2))%nat by lia. apply W5. lia.
          -- rewrite O5 by lia. apply C4. lia.
        * intros x Hx. rewrite A2 by (cbn [In]; lia). rewrite O5 by lia. apply M4. auto. }
  apply wp_finally.
  eapply wp_mono with (P := fun rc s4 => exists V, vloc n V st0 s4 /\ length V = 8%nat /\ code (ecdsa_verify {| sa_grp := egrp p am b G N; sa_d := pvt; sa_q := ept Q |} (ofZ rv) (ofZ sv) m) = Some rc).
  2:{ intros rc s4 (V & KV & L8 & Ec). apply (CL V); auto. }
  clear CL. set (z := be_val (firstn (8 * used (ofZ N)) m)).
  assert (HN3 : has s3 (g + 6) (ofZ N)) by (eapply vloc_out; [exact K|lia|exact HN]).
  destruct (has_elim _ _ _ HN3) as (Ln & Un & _). apply wp_bind. apply wp_get; [exact Ln|]. rewrite Un. clear Ln Un HN3.
  eapply vloc_chk0; [exact GR|exact K|cbn [length]; lia|apply Nat.le_refl| |].
  { eapply wp_mono; [apply load_bin_leaf; eapply has_live; vval K|]. intros rc s4 Lf. apply leaf_after; [cbn [length]; lia|exact (proj1 K)|].
    assert (Es : o_sg (ob s3 n) = false). { assert (H0 : has s3 n mzero) by vval K. destruct (has_elim _ _ _ H0) as (_ & _ & E & _). exact E. }
    rewrite Es, load_bin_ofZ in Lf by (apply bytes_firstn; exact Hm). fold z in Lf. exact Lf. }
  cbn [upd]. clear K. intros s4 K.
  vstep GR K 1%nat ltac:(fun K => apply copy_after; [exact (proj1 K)|cbn [length]; lia|vuse K|eapply vloc_out; [exact K|exact Ls|exact Hs]]).
  (* the inverse *)
  apply wp_check. eapply wp_mono; [apply (inv_safe e s' (n + 8) (n + 1) (n + 1) (g + 6) sv N GR); [vcalm K|lia|lia|lia|vuse K|vval K|vval K|lia|lia]|].
  intros rc s5 (C5 & (K5 & T5) & I1 & I2). destruct (Z.eq_dec (Z.gcd sv N) 1) as [E1|E1].
  2:{ destruct (I2 E1) as (-> & Mr). cbn [Z.eqb]. exists [ofZ z; ofZ sv; ofZ 1; ofZ 1; mzero; ofZ 1; ofZ 1; mzero]. split; [|split; [reflexivity|]].
      - destruct K as (A1 & A2 & A3 & A4). split; [exact C5|]. split; [intros x Hx; rewrite K5 by lia; auto|]. split; [lia|].
        intros i Hi. eapply has_same; [|apply A4; exact Hi]. destruct (Nat.eq_dec i 1) as [->|Ni]; [exact Mr|]. cbn [length] in Hi. apply K5; lia.
      - rewrite (ecdsa_verify_err p am b G N _ m (ofZ rv) sv); [reflexivity|lia|exact E1|reflexivity]. }
  destruct (I1 E1) as (-> & w & Hw & Rw & Ew). cbn [Z.eqb]. rewrite Z.mod_1_l in Ew by lia. clear I1 I2.
  assert (K' : vloc n [ofZ z; ofZ w; ofZ 1; ofZ 1; mzero; ofZ 1; ofZ 1; mzero] st0 s5).
  { destruct K as (A1 & A2 & A3 & A4). split; [exact C5|]. split; [intros x Hx; rewrite K5 by lia; auto|]. split; [lia|].
    intros i Hi. destruct (Nat.eq_dec i 1) as [->|Ni]; [exact Hw|]. cbn [length] in Hi.
    replace (nth i [ofZ z; ofZ w; ofZ 1; ofZ 1; mzero; ofZ 1; ofZ 1; mzero] mzero) with (nth i [ofZ z; ofZ sv; ofZ 1; ofZ 1; mzero; ofZ 1; ofZ 1; mzero] mzero) by (destruct i as [|[|i]]; [reflexivity|lia|reflexivity]).
    eapply has_same; [|apply A4; exact Hi]. apply K5; lia. }
  clear K C5 K5 T5 Hw. rename K' into K.
  destruct (ecdsa_verify_any p a b am G N pvt Q m rv sv HA HD OQ NQ Hm E1) as (w' & Hw' & Ew' & EV). fold z in EV.
  assert (w' = w). { apply (inv_unique N sv); auto; lia. } subst w'. clear Hw' Ew'. rewrite EV. clear EV.
  vstep0 GR K by_mul. vstep0 GR K by_mod. vstep GR K 1%nat by_mul. vstep GR K 1%nat by_mod.
  pose proof (Z.mod_pos_bound (z * w) N ltac:(lia)) as B1. pose proof (Z.mod_pos_bound (rv * w) N ltac:(lia)) as B2.
  set (u1 := (z * w) mod N) in *. set (u2 := (rv * w) mod N) in *.
  (* u1 G *)
  apply wp_check. eapply wp_mono.
  { eapply (mul_mem p a b am G N e _ (n + 8) (n + 2) (g + 3) n g G u1 HA HG GR); [vcalm K|lia|lia|lia|lia|eapply vloc_use_pt; [exact K|cbn [length]; lia]|eapply vloc_pt; [exact K|lia|exact HGp]|vval K|eapply vloc_grp; [exact K|lia|exact Hg]|red; lia|exact HP|exact NG2]. }
  intros rc s9 R. apply (vloc_result _ _ _ _ _ _ _ _ _ K) in R; [|cbn [length]; lia|reflexivity]. destruct R as (-> & K9). unfold upd3 in K9. cbn [upd Nat.add] in K9. clear K. rename K9 into K. rewrite Z.eqb_refl. rewrite (Z.abs_eq u1) in K by lia.
  (* u2 Q *)
  apply wp_check. eapply wp_mono.
  { eapply (mul_mem p a b am G N e _ (n + 8) (n + 5) q (n + 1) g Q u2 HA HG GR); [vcalm K|lia|lia|lia|lia|eapply vloc_use_pt; [exact K|cbn [length]; lia]|eapply vloc_pt; [exact K|lia|exact Hq]|vval K|eapply vloc_grp; [exact K|lia|exact Hg]|red; lia|exact OQ|exact NQ]. }
  intros rc s10 R. apply (vloc_result _ _ _ _ _ _ _ _ _ K) in R; [|cbn [length]; lia|reflexivity]. destruct R as (-> & K9). unfold upd3 in K9. cbn [upd Nat.add] in K9. clear K. rename K9 into K. rewrite Z.eqb_refl. rewrite (Z.abs_eq u2) in K by lia.
  (* the sum *)
  apply wp_check. eapply wp_mono.
  { eapply (add_mem p a b am HA HG G N e _ (n + 8) (n + 2) (n + 2) (n + 5) g (ec_mul p a u1 G) (ec_mul p a u2 Q) GR); [vcalm K|lia|lia|lia|lia|eapply vloc_use_pt; [exact K|cbn [length]; lia]|..].
    - eapply vloc_point; [exact K|cbn [length]; lia|reflexivity..].
    - eapply vloc_point; [exact K|cbn [length]; lia|reflexivity..].
    - eapply vloc_grp; [exact K|lia|exact Hg].
    - red; lia.
    - red; lia.
    - apply (ec_mul_on p a b HG); auto; lia.
    - apply (ec_mul_on p a b HG); auto; lia.
    - intros [_ [x Ex]]. revert Ex. apply NG2. lia. }
  intros rc s11 R. apply (vloc_result _ _ _ _ _ _ _ _ _ K) in R; [|cbn [length]; lia|reflexivity]. destruct R as (-> & K9). unfold upd3 in K9. cbn [upd Nat.add] in K9. clear K. rename K9 into K. rewrite Z.eqb_refl.
  change (ec_add p a (ec_mul p a u1 G) (ec_mul p a u2 Q)) with (ecdsa_point p a G Q N z rv w) in K. rewrite ex_ept in K. set (X := ecdsa_point p a G Q N z rv w) in *.
  vstep GR K 2%nat by_mod.
  apply wp_bind. eapply wp_peek; [vval K|]. apply wp_bind. eapply wp_peek; [eapply vloc_out; [exact K|exact Lr|exact Hr]|]. apply wp_ret. cbn [nth]. rewrite cmp_abs_ofZ.
  eexists. split; [exact K|]. split; [reflexivity|].
  pose proof (Z.mod_pos_bound (xcoord X) N ltac:(lia)) as B3. rewrite (Z.abs_eq (xcoord X mod N)) by lia.
  replace (Z.sgn (xcoord X mod N - Z.abs rv) =? 0) with (xcoord X mod N =? Z.abs rv) by (clear; lia). destruct (xcoord X mod N =? Z.abs rv); reflexivity.
Qed.

(** * Signature *)
(** a call whose destination is any object below [n] *)
Lemma on_chk e n r b v s M f (Q : Z -> st -> Prop) : (forall k, grant e k = true) -> (r < n)%nat -> calm n s ->
  wp M e s (after e n r b v s) -> (forall s', onto n r v s s' -> wp f e s' Q) -> wp (chk M; f) e s Q.
Proof. intros G L C W K. eapply (sure_chk e n n r); eauto. Qed.
Lemma onto_has n r v s s' x w : onto n r v s s' -> (x < n)%nat -> x <> r -> has s x w -> has s' x w.
Proof. intros (_ & F & _) L N H. eapply has_same; [apply F; auto|auto]. Qed.
Lemma onto_val n r v s s' : onto n r v s s' -> has s' r v.
Proof. intros (_ & _ & _ & H). exact H. Qed.
Lemma onto_use n r v s s' x : onto n r v s s' -> (x < n)%nat -> usable s x -> usable s' x.
Proof. intros O L (w & H). destruct (Nat.eq_dec x r) as [->|N]; [exists v; apply O|exists w; eapply onto_has; eauto]. Qed.
Theorem sign_mem p a b am G N e st0 n g d r s dz bin m k : a_rep am a -> ecdsa_domain p a b G N -> (forall k, grant e k = true) -> calm n st0 ->
  (g + 6 < n)%nat -> (d < n)%nat -> (r < n)%nat -> (s < n)%nat -> group st0 g p am b G N -> has st0 d (ofZ dz) -> usable st0 r -> usable st0 s ->
  r <> s -> r <> d -> ~ (g <= r < g + 7)%nat -> ~ (g <= s < g + 7)%nat -> bytes m -> draw_for N bin ->
  rand_range false 8 (ofZ N) bin = Ok (ofZ k) -> 0 < k < N -> (used (ofZ N) <= 8)%nat \/ B ^ (Z.of_nat (used (ofZ N)) - 1) <= be_val bin ->
  let z := be_val (firstn (8 * used (ofZ N)) m) in
  exists x y ki, ec_mul p a k G = Some (x, y) /\ 0 <= ki < N /\ (k * ki) mod N = 1 /\
  wp (ecdsa_sign_m n g d r s bin m) e st0 (fun rc s' => rc = 0 /\ has s' r (ofZ x) /\ has s' s (ofZ (((dz * x + z) * ki) mod N)) /\
    calm n s' /\ (forall x, (x < n)%nat -> x <> r -> x <> s -> mem s' x = mem st0 x)).
Proof.
  intros HA HD GR C Lg Ld Lr Ls Hg Hd Ur Us Nrs Nrd Ngr Ngs Hm HB ER Hk HC z. pose proof HD as (HG & HP & NG & Pn & L2 & E0). pose proof (domain_odd _ _ _ _ _ HD) as HO.
  pose proof (odd_no_order2 p a b HG G HP HO) as NG2. pose proof Hg as (_ & _ & _ & HGp & HN).
  pose proof (domain_finite p a b G N k HD Hk) as FX. destruct (ec_mul p a k G) as [[x y]|] eqn:EX; [|contradiction].
  destruct (inv_ofZ k N ltac:(lia)) as [I _]. pose proof (gcd_prime_small N k Pn Hk) as Gk. destruct (I Gk) as (ki & _ & Hki & EK). rewrite Z.mod_1_l in EK by lia. clear I.
  exists x, y, ki. split; [reflexivity|]. split; [exact Hki|]. split; [exact EK|].
  unfold ecdsa_sign_m. apply loc_init; [exact C| |intros s' _ _ S; destruct (fed _ _ _ GR S)]. cbn [repeat]. intros s1 K0 L8.
  assert (K : vloc n [mzero; mzero] st0 s1).
  { destruct K0 as (A1 & A2 & A3 & A4). split; [exact A1|]. split; [exact A2|]. split; [exact A3|]. intros [|[|i]] Hi; [apply (A4 0%nat)|apply (A4 1%nat)|]; cbn [length] in *; lia. }
  assert (L8n : (8 <= len s1 n)%nat) by (rewrite <- (Nat.add_0_r n); apply L8; lia). clear K0 L8.
  apply wp_bind. apply wp_finally.
  (* what holds before the clean-ups *)
  set (Done := fun s' : st => has s' r (ofZ x) /\ has s' s (ofZ (((dz * x + z) * ki) mod N)) /\ calm (n + 5) s' /\ (forall i, (i < 5)%nat -> usable s' (n + i)) /\
    (forall x, (x < n)%nat -> x <> r -> x <> s -> mem s' x = mem st0 x)).
  assert (CL : forall (rc : Z) s4, Done s4 -> wp (pt_clear_m (n + 2)) e s4 (fun _ s5 => wp (clear_list (locals n 2)) e s5 (fun _ s6 =>
      wp (ret 0) e s6 (fun rc s' => rc = 0 /\ has s' r (ofZ x) /\ has s' s (ofZ (((dz * x + z) * ki) mod N)) /\
    calm n s' /\ (forall x, (x < n)%nat -> x <> r -> x <> s -> mem s' x = mem st0 x))))).
  { clear HC HB ER Hki EK Hk L8n K FX Gk E0 HO L2 Nrs Nrd Ngr Ngs. intros _ s4 (D1 & D2 & D3 & D4 & D5). eapply wp_mono; [apply pt_clear_ok|].
    { split; [|split]; rewrite <- ?Nat.add_assoc; apply D4; lia. }
    intros t s5 (T5 & V5 & F5). eapply wp_mono; [apply clear_list_ok|].
    { intros w Hw. apply in_locals in Hw. unfold live. rewrite F5 by lia. replace w with (n + (w - n))%nat by lia. apply usable_live. apply D4. lia. }
    intros t' s6 (A1 & A2 & A3). apply wp_ret. split; auto.
    assert (O6 : forall w, (w < n)%nat -> mem s6 w = mem s4 w) by (intros w Hw; rewrite A2 by (rewrite in_locals; lia); apply F5; lia).
    split; [eapply has_same; [apply O6; auto|exact D1]|]. split; [eapply has_same; [apply O6; auto|exact D2]|]. split.
    - intros w Hw. destruct (in_dec Nat.eq_dec w (locals n 2)) as [I|I]; [right; apply A1; auto|]. rewrite A2 by auto. rewrite in_locals in I. destruct (Nat.lt_ge_cases w (n + 5)) as [L|L].
      + right. replace w with (n + 2 + (w - n - 2))%nat by lia. apply V5. lia.
      + rewrite F5 by lia. apply D3. lia.
    - intros w Hw H1 H2. rewrite O6 by auto. auto. }
  apply wp_check. eapply wp_mono; [apply wp_and; [apply (vloc_pt_init e n [mzero; mzero] st0 s1 GR K)|apply pt_init_ok; exact GR]|]. cbn [app]. intros rc s2 ((-> & K2) & (_ & _ & _ & F2)). clear K. rename K2 into K. rewrite Z.eqb_refl.
  assert (L8' : (8 <= len s2 n)%nat) by (unfold len, dat, ob in *; rewrite F2 by (cbn [length]; lia); exact L8n). clear L8n F2.
  apply wp_finally. eapply wp_mono with (P := fun rc s4 => rc = 0 /\ Done s4); [|intros rc s4 (_ & D); apply (CL rc); exact D]. clear CL.
  assert (HN3 : has s2 (g + 6) (ofZ N)) by (eapply vloc_out; [exact K|lia|exact HN]).
  destruct (has_elim _ _ _ HN3) as (Ln & Un & _). apply wp_bind. apply wp_get; [exact Ln|]. rewrite Un. clear Ln Un HN3.
  (* z *)
  apply wp_check. eapply wp_mono; [apply load_bin_leaf; eapply has_live; eapply (vloc_has _ _ _ _ 1); [exact K|cbn [length]; lia|reflexivity]|]. intros rc s3 Lf.
  assert (Es : o_sg (ob s2 (n + 1)) = false). { assert (H0 : has s2 (n + 1) mzero) by vval K. destruct (has_elim _ _ _ H0) as (_ & _ & E & _). exact E. }
  rewrite Es, load_bin_ofZ in Lf by (apply bytes_firstn; exact Hm). fold z in Lf.
  assert (L8'' : (8 <= len s3 n)%nat) by (unfold len, dat, ob in *; rewrite (proj1 Lf) by lia; exact L8'). clear L8' Es.
  assert (K3 : rc = 0 /\ vloc n [mzero; ofZ z; ofZ 1; ofZ 1; mzero] st0 s3).
  { destruct Lf as (F3 & T3 & [(-> & H3 & _)|(_ & S & _)]); [|destruct (fed _ _ _ GR S)]. split; auto. destruct K as (A1 & A2 & A3 & A4). split; [intros w Hw; cbn [length] in Hw; rewrite F3 by lia; apply A1; cbn [length]; lia|].
    split; [intros w Hw; rewrite F3 by lia; auto|]. split; [lia|]. intros i Hi. destruct (Nat.eq_dec i 1) as [->|Ni]; [exact H3|].
    replace (nth i [mzero; ofZ z; ofZ 1; ofZ 1; mzero] mzero) with (nth i [mzero; mzero; ofZ 1; ofZ 1; mzero] mzero) by (destruct i as [|[|i]]; [reflexivity|lia|reflexivity]).
    eapply has_same; [apply F3; lia|apply A4; exact Hi]. }
  clear K Lf. destruct K3 as (-> & K). rewrite Z.eqb_refl.
  (* k *)
  destruct (rand_range_after e (n + 5) n (g + 6) bin s3 N mzero) as (k' & Hk' & E' & W'); [vcalm K|lia|lia|lia|vval K|reflexivity|vval K|lia|exact HB|destruct HC; [left; lia|right; auto]|].
  assert (k' = k). { rewrite <- (mval_ofZ k'), <- (mval_ofZ k). f_equal. exact (rand_range_det _ _ _ _ _ _ _ E' ER). } subst k'. clear E' Hk' L8''.
  eapply vloc_chk0; [exact GR|exact K|cbn [length]; lia| |exact W'|]; [cbn [length]; lia|]. cbn [upd]. clear K W'. intros s4 K.
  (* k G *)
  apply wp_check. eapply wp_mono.
  { eapply (mul_mem p a b am G N e _ (n + 5) (n + 2) (g + 3) n g G k HA HG GR); [vcalm K|lia|lia|lia|lia|eapply vloc_use_pt; [exact K|cbn [length]; lia]|eapply vloc_pt; [exact K|lia|exact HGp]|vval K|eapply vloc_grp; [exact K|lia|exact Hg]|red; lia|exact HP|exact NG2]. }
  intros rc s9 R. apply (vloc_result _ _ _ _ _ _ _ _ _ K) in R; [|cbn [length]; lia|reflexivity]. destruct R as (-> & K9). unfold upd3 in K9. cbn [upd Nat.add] in K9. clear K. rename K9 into K. rewrite Z.eqb_refl. rewrite (Z.abs_eq k) in K by lia.
  rewrite EX in K. cbn [ept ex ey ez] in K.
  (* r *)
  assert (HX : has s9 (n + 2) (ofZ x)) by vval K. assert (HZ : has s9 (n + 1) (ofZ z)) by vval K. assert (HK : has s9 n (ofZ k)) by vval K.
  assert (U3 : usable s9 (n + 3)) by vuse K. assert (U4 : usable s9 (n + 4)) by vuse K. assert (C9 : calm (n + 5) s9) by vcalm K.
  assert (F9 : forall w, (w < n)%nat -> mem s9 w = mem st0 w) by apply K.
  apply wp_bind. apply swap_ok; [unfold live; rewrite F9 by auto; apply usable_live; exact Ur|eapply has_live; exact HX|]. intros s5 S1 S2 S3 S4.
  assert (Hr5 : has s5 r (ofZ x)) by (unfold has; rewrite S1; exact HX). assert (U2 : usable s5 (n + 2)) by (unfold usable, has; rewrite S2, F9 by auto; exact Ur).
  assert (HZ5 : has s5 (n + 1) (ofZ z)) by (eapply has_same; [apply S3; lia|exact HZ]). assert (HK5 : has s5 n (ofZ k)) by (eapply has_same; [apply S3; lia|exact HK]).
  assert (U35 : usable s5 (n + 3)) by (unfold usable, has; rewrite S3 by lia; exact U3). assert (U45 : usable s5 (n + 4)) by (unfold usable, has; rewrite S3 by lia; exact U4).
  assert (C5 : calm (n + 5) s5) by (intros w Hw; rewrite S3 by lia; apply C9; auto).
  assert (F5 : forall w, (w < n)%nat -> w <> r -> mem s5 w = mem st0 w) by (intros w Hw Nw; rewrite S3 by lia; auto).
  assert (HN5 : has s5 (g + 6) (ofZ N)) by (eapply has_same; [apply F5; lia|exact HN]). assert (Hd5 : has s5 d (ofZ dz)) by (eapply has_same; [apply F5; auto|exact Hd]).
  assert (Us5 : usable s5 s) by (eapply usable_same; [apply F5; auto|exact Us]).
  clear S1 S2 S3 S4 HX HZ HK U3 U4 C9 F9 K s1 s2 s3 s4.
  (* the inverse of k *)
  assert (Ki : minv N k = ki).
  { assert (ND : ~ (N | k)) by (intro D; apply Z.divide_pos_le in D; lia). pose proof (minv_ok N Pn k ND) as M. rewrite Z.mul_comm in M.
    apply (inv_unique N k); auto; [lia|unfold minv; apply Z.mod_pos_bound; lia]. }
  eapply (on_chk e (n + 5) n); [exact GR|lia|exact C5|apply (inv_after e s5 (n + 5) n n (g + 6) k N); [exact GR|exact C5|lia|lia|lia|eexists; exact HK5|exact HK5|exact HN5|exact Pn|exact L2| |lia]|].
  { intro D; apply Z.divide_pos_le in D; lia. }
  rewrite Ki. intros t1 O1. assert (H1k := onto_val _ _ _ _ _ O1).
  assert (H1r : has t1 r (ofZ x)) by (eapply onto_has; [exact O1|lia|lia|exact Hr5]). assert (H1d : has t1 d (ofZ dz)) by (eapply onto_has; [exact O1|lia|lia|exact Hd5]).
  assert (H1z : has t1 (n + 1) (ofZ z)) by (eapply onto_has; [exact O1|lia|lia|exact HZ5]). assert (H1N : has t1 (g + 6) (ofZ N)) by (eapply onto_has; [exact O1|lia|lia|exact HN5]).
  eapply (on_chk e (n + 5) s); [exact GR|lia|exact (proj1 O1)|apply (mul_safe e t1 (n + 5) s d r dz x); [exact (proj1 O1)|lia|lia|lia|eapply onto_use; [exact O1|lia|exact Us5]|exact H1d|exact H1r]|].
  intros t2 O2. assert (H2s := onto_val _ _ _ _ _ O2).
  assert (H2r : has t2 r (ofZ x)) by (eapply onto_has; [exact O2|lia|auto|exact H1r]). assert (H2k : has t2 n (ofZ ki)) by (eapply onto_has; [exact O2|lia|lia|exact H1k]).
  assert (H2z : has t2 (n + 1) (ofZ z)) by (eapply onto_has; [exact O2|lia|lia|exact H1z]). assert (H2N : has t2 (g + 6) (ofZ N)) by (eapply onto_has; [exact O2|lia|lia|exact H1N]).
  eapply (on_chk e (n + 5) s); [exact GR|lia|exact (proj1 O2)|apply (add_after e t2 (n + 5) s s (n + 1) (ofZ (dz * x)) (ofZ z) (ofZ (dz * x + z)) (proj1 O2)); [lia|eexists; exact H2s|exact H2s|exact H2z|apply add_ofZ]|].
  intros t3 O3. assert (H3s := onto_val _ _ _ _ _ O3).
  assert (H3r : has t3 r (ofZ x)) by (eapply onto_has; [exact O3|lia|auto|exact H2r]). assert (H3k : has t3 n (ofZ ki)) by (eapply onto_has; [exact O3|lia|lia|exact H2k]).
  assert (H3N : has t3 (g + 6) (ofZ N)) by (eapply onto_has; [exact O3|lia|lia|exact H2N]).
  eapply (on_chk e (n + 5) s); [exact GR|lia|exact (proj1 O3)|apply (mul_safe e t3 (n + 5) s s n (dz * x + z) ki); [exact (proj1 O3)|lia|lia|lia|eexists; exact H3s|exact H3s|exact H3k]|].
  intros t4 O4. assert (H4s := onto_val _ _ _ _ _ O4).
  assert (H4r : has t4 r (ofZ x)) by (eapply onto_has; [exact O4|lia|auto|exact H3r]). assert (H4N : has t4 (g + 6) (ofZ N)) by (eapply onto_has; [exact O4|lia|lia|exact H3N]).
  eapply (sure e (n + 5) (n + 5) s); [exact GR|lia|lia|exact (proj1 O4)|apply (mod_safe e t4 (n + 5) s s (g + 6) ((dz * x + z) * ki) N); [exact (proj1 O4)|lia|lia|lia|exact H4s|exact H4N|eexists; exact H4s|lia|right; lia]|].
  intros t5 O5. split; auto. split; [eapply onto_has; [exact O5|lia|auto|exact H4r]|]. split; [exact (onto_val _ _ _ _ _ O5)|]. split; [exact (proj1 O5)|]. split.
  - intros i Hi. assert (U5 : usable s5 (n + i)).
    { destruct i as [|[|[|[|[|i]]]]]; [rewrite Nat.add_0_r; eexists; exact HK5|eexists; exact HZ5|exact U2|exact U35|exact U45|lia]. }
    do 5 (eapply onto_use; [eassumption|lia|]). exact U5.
  - intros w Hw N1 N2'. destruct O1 as (_ & O1 & _), O2 as (_ & O2 & _), O3 as (_ & O3 & _), O4 as (_ & O4 & _), O5 as (_ & O5 & _). rewrite O5, O4, O3, O2, O1 by lia. apply F5; auto.
Qed.

(** * Key generation *)
Theorem keygen_mem p a b am G N e s n g d q v0 bin : a_rep am a -> ecdsa_domain p a b G N -> (forall k, grant e k = true) -> calm n s ->
  (g + 6 < n)%nat -> (d < n)%nat -> (q + 2 < n)%nat -> group s g p am b G N -> has s d v0 -> neg v0 = false -> usable_pt s q ->
  ~ (g <= d < g + 7)%nat -> ~ (q <= d < q + 3)%nat -> same_or_apart q (g + 3) -> draw_for N bin ->
  (used (ofZ N) <= len s d)%nat \/ B ^ (Z.of_nat (used (ofZ N)) - 1) <= be_val bin ->
  exists dz, 0 <= dz < N /\ rand_range false (len s d) (ofZ N) bin = Ok (ofZ dz) /\
  wp (ecdsa_keygen_m n g d q bin) e s (fun rc s' => rc = 0 /\ has s' d (ofZ dz) /\ point s' q (ec_mul p a dz G) /\
    calm n s' /\ (forall x, (x < n)%nat -> x <> d -> ~ (q <= x < q + 3)%nat -> mem s' x = mem s x)).
Proof.
  intros HA HD GR C Lg Ld Lq Hg Hd Sd Uq Ngd Nqd SA HB HC. pose proof HD as (HG & HP & NG & Pn & L2 & E0). pose proof (domain_odd _ _ _ _ _ HD) as HO.
  pose proof (odd_no_order2 p a b HG G HP HO) as NG2. pose proof Hg as (Hp & Ha & Hb & HGp & HN).
  destruct (rand_range_after e n d (g + 6) bin s N v0) as (dz & Hdz & E & W); auto; try lia. exists dz. split; [exact Hdz|]. split; [exact E|].
  unfold ecdsa_keygen_m. eapply (on_chk e n d); [exact GR|lia|exact C|exact W|]. intros s1 O. pose proof O as (C1 & F1 & _ & H1).
  assert (Hg1 : group s1 g p am b G N).
  { destruct HGp as (P1 & P2 & P3). repeat split; eapply has_same; try apply F1; eauto; lia. }
  eapply wp_mono; [apply (mul_mem p a b am G N e s1 n q (g + 3) d g G dz HA HG GR C1); [lia|lia|lia|lia| |apply Hg1|exact H1|exact Hg1|exact SA|exact HP|exact NG2]|].
  { destruct Uq as (U1 & U2 & U3). split; [|split]; eapply usable_same; try apply F1; eauto; lia. }
  rewrite Z.abs_eq by lia. intros rc s2 (-> & V & C2 & _ & F2). split; auto. split; [eapply has_same; [apply F2; lia|exact H1]|]. split; [exact V|]. split; [exact C2|].
  intros x Hx N1 N2. rewrite F2 by lia. apply F1; auto.
Qed.

(** * The verdict as an equation *)
Theorem verify_eq p a b am G N e st0 n g q r s Q rv sv m : a_rep am a -> ecdsa_domain p a b G N -> (forall k, grant e k = true) -> calm n st0 ->
  (g + 6 < n)%nat -> (q + 2 < n)%nat -> (r < n)%nat -> (s < n)%nat -> group st0 g p am b G N -> point st0 q Q -> has st0 r (ofZ rv) -> has st0 s (ofZ sv) ->
  on_curve p a b Q -> odd_order p a Q -> bytes m -> Z.gcd sv N = 1 ->
  let z := be_val (firstn (8 * used (ofZ N)) m) in
  exists w, 0 <= w < N /\ (sv * w) mod N = 1 /\
  wp (ecdsa_verify_m n g q r s m) e st0 (fun rc s' => rc = (if xcoord (ecdsa_point p a G Q N z rv w) mod N =? Z.abs rv then 0 else -1) /\ untouched n st0 s').
Proof.
  intros HA HD GR C Lg Lq Lr Ls Hg HQ Hr Hs OQ DQ Hm Gd z. destruct (ecdsa_verify_form p a b am G N mzero Q m rv sv HA HD OQ DQ Hm Gd) as (w & Hw & W & V).
  exists w. split; auto. split; auto. pose proof HD as (HG & _).
  eapply wp_mono; [apply (verify_mem p a b am G N e st0 n g q r s Q rv sv m mzero); auto; apply (odd_no_order2 p a b HG Q OQ DQ)|].
  cbv beta. intros rc s' (E & C' & F). split; [|split; auto]. rewrite V in E. fold z in E. destruct (_ =? _); cbn [code] in E; congruence.
Qed.
Theorem verify_no p a b am G N e st0 n g q r s Q rv sv m : a_rep am a -> ecdsa_domain p a b G N -> (forall k, grant e k = true) -> calm n st0 ->
  (g + 6 < n)%nat -> (q + 2 < n)%nat -> (r < n)%nat -> (s < n)%nat -> group st0 g p am b G N -> point st0 q Q -> has st0 r (ofZ rv) -> has st0 s (ofZ sv) ->
  on_curve p a b Q -> odd_order p a Q -> bytes m -> Z.gcd sv N <> 1 ->
  wp (ecdsa_verify_m n g q r s m) e st0 (fun rc s' => rc = -1 /\ untouched n st0 s').
Proof.
  intros HA HD GR C Lg Lq Lr Ls Hg HQ Hr Hs OQ DQ Hm Gd. pose proof HD as (HG & _ & _ & Pn & L2 & _).
  eapply wp_mono; [apply (verify_mem p a b am G N e st0 n g q r s Q rv sv m mzero); auto; apply (odd_no_order2 p a b HG Q OQ DQ)|].
  cbv beta. intros rc s' (E & C' & F). split; [|split; auto]. rewrite (ecdsa_verify_err p am b G N) in E by (auto; lia). cbn [code] in E. congruence.
Qed.

(** * Reading bytes *)
Theorem load_bin_after e s n x v buf : calm n s -> (x < n)%nat -> has s x v -> neg v = false -> bytes buf ->
  wp (load_bin_m x buf) e s (after e n x true (ofZ (be_val buf)) s).
Proof.
  intros C L H N Hb. eapply wp_mono; [apply load_bin_leaf; eapply has_live; exact H|]. intros rc s' K. apply leaf_after; auto.
  destruct (has_elim _ _ _ H) as (_ & _ & E & _). rewrite E, N, load_bin_ofZ in K by exact Hb. exact K.
Qed.
