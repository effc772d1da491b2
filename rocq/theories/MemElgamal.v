(** Memory-level ElGamal: verification whatever allocations are refused, signing
    while none is. *)
From Coq Require Import Znumtheory.
From Verif Require Import Base Lists BytesSpec Bytes Bits MpiModel MpiSpec MpiDigits MpiMulModel MpiCanon MpiDivModel MpiDiv MpiAlgModel MpiAlg MpiAlg2 MpiIOModel MpiIO MpiTextSpec MpiRand Pk PkModel PkSpec NumTh MemModel MemMulModel MemDivModel MemAlgModel MemSpec Mem MemOps MemShift MemLeaf MemMul MemSim MemToom MemMulSafe MemDiv MemDivSafe MemLoc MemGcd MemExp MemAlgSpec MemAlgSafe MemInv MemEcpModel MemEcpSpec MemEcp MemEcpMul MemBin MemEcdsa MemEcpFail MemPkModel MemPkSpec MemFair MemDsa.
Ltac Zify.zify_post_hook ::= idtac.

Ltac uval K := first [vval K | eapply vloc_out; [exact K|lia|assumption]].
(** one call of a body, with the local [i] as destination *)
Ltac fstep K i := eapply (fair_check _ _ _ _ _ i _ _ _ _ _ _ K); [cbn [length]; lia|apply Nat.le_refl| |]; cbn [length].
Ltac fnext K := cbn [upd length power]; clear K; intros ? K.

Theorem eg_verify_fair e s0 n c r s p g y d rv sv m : calm n s0 -> (c + 3 < n)%nat -> (r < n)%nat -> (s < n)%nat ->
  holding s0 c [p; g; y; d] -> has s0 r (ofZ rv) -> has s0 s (ofZ sv) -> 1 < p -> 0 <= rv -> 0 <= sv -> bytes m ->
  unless_refused (eg_verify2_m n c r s m) e s0
    (returns e n (-1) (if ((Z.of_nat (length m) <=? count_bytes (ofZ p)) && ((y ^ rv * rv ^ sv) mod p =? g ^ be_val m mod p))%bool then 0 else -1) s0).
Proof.
  intros C Lc Lr Ls (Hp & Hg & Hy & _ & _) Hr Hs Pp Pr Ps Bm. apply fair_unless. unfold eg_verify2_m. eapply fair_peek; [exact Hp|].
  destruct (Z.ltb_spec (count_bytes (ofZ p)) (Z.of_nat (length m))) as [L|L].
  { apply fair_ret. split; [split; auto|]. split; auto. left. destruct (Z.leb_spec (Z.of_nat (length m)) (count_bytes (ofZ p))); [lia|reflexivity]. }
  destruct (Z.leb_spec (Z.of_nat (length m)) (count_bytes (ofZ p))) as [_|F]; [|lia]. cbn [andb]. clear L.
  assert (Hg' : has s0 (c + 1) (ofZ g)) by (replace (c + 1)%nat with (S c) by lia; exact Hg). assert (Hy' : has s0 (c + 2) (ofZ y)) by (replace (c + 2)%nat with (S (S c)) by lia; exact Hy). clear Hg Hy.
  apply fair_init_z; [exact C|]. cbn [repeat]. intros s1 K.
  match goal with |- fair _ (finally ?b ?cl) _ _ _ => change (finally b cl) with (closing b cl) end. apply fair_closing.
  assert (WM : forall t, has t c (ofZ p) -> with_modulus (n + 2) t (Some c) (Some p)) by (intros t Ht; split; [lia|split; [exact Ht|lia]]).
  assert (M1 : Some p <> Some 1) by (intro F; injection F; lia).
  fstep K 0%nat.
  { rewrite Nat.add_0_r. apply (exp_fair e s1 (n + 2) n (c + 2) r (Some c) y rv (Some p)); [exact (proj1 K)|lia|lia|lia|vuse K|uval K|uval K|apply WM; uval K|lia|auto]. }
  fnext K. set (a := y ^ rv mod p) in K.
  fstep K 1%nat.
  { apply (exp_fair e _ (n + 2) (n + 1) r s (Some c) rv sv (Some p)); [exact (proj1 K)|lia|lia|lia|vuse K|uval K|uval K|apply WM; uval K|lia|auto]. }
  fnext K. set (b := rv ^ sv mod p) in K.
  fstep K 0%nat. { rewrite Nat.add_0_r. apply fair_unless, fair_wp. by_mul K. }
  fnext K.
  fstep K 0%nat. { rewrite Nat.add_0_r. apply fair_unless, fair_wp. by_mod K. }
  fnext K.
  fstep K 1%nat.
  { apply fair_unless, fair_wp. apply (load_bin_after e _ _ (n + 1) (ofZ b) m); [exact (proj1 K)|cbn; lia|vval K| |exact Bm]. rewrite ofZ_neg. unfold b. pose proof (Z.mod_pos_bound (rv ^ sv) p ltac:(lia)). destruct (Z.ltb_spec (rv ^ sv mod p) 0); [lia|reflexivity]. }
  fnext K. pose proof (be_val_bound m Bm) as Bz.
  fstep K 1%nat.
  { apply (exp_fair e _ (n + 2) (n + 1) (c + 1) (n + 1) (Some c) g (be_val m) (Some p)); [exact (proj1 K)|lia|lia|lia|vuse K|uval K|uval K|apply WM; uval K|lia|auto]. }
  fnext K.
  eapply fair_peek; [vval K|]. eapply fair_peek; [vval K|]. apply fair_ret. cbn [nth]. rewrite cmp_ofZ.
  assert (E1 : (a * b) mod p = (y ^ rv * rv ^ sv) mod p) by (unfold a, b; rewrite <- Z.mul_mod by lia; reflexivity). rewrite E1 in *.
  assert (X : forall u v, (Z.sgn (u - v) =? 0) = (u =? v)) by (clear; intros; lia). rewrite X. exact (vloc_left e n _ s0 _ (-1) _ K).
Qed.

(** * Signing, while no allocation is refused *)
Lemma drawn_value t b k k' : drawn t b k -> drawn t b k' -> k = k'.
Proof. intros (_ & E & _) (_ & E' & _). rewrite E in E'. apply ok_inj in E'. rewrite <- (mval_ofZ k), <- (mval_ofZ k'), E'. reflexivity. Qed.
Lemma round_step e n k t tz s v0 b kz f (Q : Z -> st -> Prop) : (forall i, grant e i = true) -> (k < n)%nat -> (t < n)%nat -> k <> t -> 0 < tz ->
  calm (n + 1) s -> has s k v0 -> neg v0 = false -> has s t (ofZ tz) -> usable s n -> drawn tz b kz ->
  (forall s', calm (n + 1) s' -> (forall x, (x < n)%nat -> x <> k -> mem s' x = mem s x) -> (tick s <= tick s')%nat -> has s' k (ofZ kz) -> 0 <= kz -> has s' n (ofZ (Z.gcd kz tz)) -> wp f e s' Q) ->
  wp (chk rand_range_m (n + 1) k t b; chk gcd_m (n + 1) n k t; f) e s Q.
Proof.
  intros GR Lk Lt Nkt Pt C Hk N0 Ht Un (DB & ER & HC) F.
  destruct (rand_range_after e (n + 1) k t b s tz v0) as (k' & Hk' & E' & W'); [exact C|lia|lia|exact Nkt|exact Hk|exact N0|exact Ht|exact Pt|exact DB|right; assumption|].
  assert (k' = kz). { rewrite <- (mval_ofZ k'), <- (mval_ofZ kz). f_equal. exact (rand_range_det _ _ _ _ _ _ _ E' ER). } subst k'. clear E' DB ER HC.
  eapply (on_chk e (n + 1) k); [exact GR|lia|exact C|exact W'|]. intros s1 O1. pose proof (onto_val _ _ _ _ _ O1) as H1k.
  eapply (on_chk e (n + 1) n); [exact GR|lia|exact (proj1 O1)|apply (gcd_safe e s1 (n + 1) n k t kz tz); [exact (proj1 O1)|lia|lia|lia|eapply onto_use; [exact O1|lia|exact Un]|exact H1k|eapply onto_has; [exact O1|lia|lia|exact Ht]|lia|lia|lia]|].
  intros s2 O2. apply F; [exact (proj1 O2)| | |eapply onto_has; [exact O2|lia|lia|exact H1k]|lia|exact (onto_val _ _ _ _ _ O2)].
  - destruct O1 as (_ & O1 & _), O2 as (_ & O2 & _). intros x Hx Nx. rewrite O2, O1 by lia. reflexivity.
  - destruct O1 as (_ & _ & O1 & _), O2 as (_ & _ & O2 & _). lia.
Qed.
Lemma rounds_mem e n k t one tz bin rest kz : (forall i, grant e i = true) -> (k < n)%nat -> (t < n)%nat -> (one < n)%nat -> k <> t -> k <> one -> 0 < tz -> drawn tz bin kz -> Z.gcd kz tz = 1 ->
  forall pre iter s v0, calm (n + 1) s -> has s k v0 -> neg v0 = false -> has s t (ofZ tz) -> has s one (ofZ 1) -> usable s n ->
  (forall b, In b pre -> exists k', drawn tz b k' /\ Z.gcd k' tz <> 1) -> iter + Z.of_nat (length pre) < 1024 ->
  wp (eg_rounds_m iter n k t one (pre ++ bin :: rest)) e s (fun rc s' => rc = 0 /\ calm (n + 1) s' /\ (forall x, (x < n)%nat -> x <> k -> mem s' x = mem s x) /\ (tick s <= tick s')%nat /\ has s' k (ofZ kz) /\ live s' n).
Proof.
  intros GR Lk Lt Lo Nkt Nko Pt DK GK. induction pre as [|b pre IH]; intros iter s v0 C Hk N0 Ht Ho Un HP HI; cbn [app eg_rounds_m].
  - eapply (round_step e n k t tz s v0 bin kz); [exact GR|exact Lk|exact Lt|exact Nkt|exact Pt|exact C|exact Hk|exact N0|exact Ht|exact Un|exact DK|]. intros s' C' F' T' Hk' Pk Hg'.
    apply wp_bind. eapply wp_peek; [exact Hg'|]. apply wp_bind. eapply wp_peek; [eapply has_same; [apply F'; auto|exact Ho]|]. rewrite GK, cmp_ofZ. change (Z.sgn (1 - 1) =? 0) with true. cbv iota.
    apply wp_ret. split; auto. split; [exact C'|]. split; [exact F'|]. split; [exact T'|]. split; [exact Hk'|]. eapply has_live; exact Hg'.
  - destruct (HP b (or_introl eq_refl)) as (k' & DK' & GK').
    eapply (round_step e n k t tz s v0 b k'); [exact GR|exact Lk|exact Lt|exact Nkt|exact Pt|exact C|exact Hk|exact N0|exact Ht|exact Un|exact DK'|]. intros s' C' F' T' Hk' Pk Hg'.
    apply wp_bind. eapply wp_peek; [exact Hg'|]. apply wp_bind. eapply wp_peek; [eapply has_same; [apply F'; auto|exact Ho]|]. rewrite cmp_ofZ.
    destruct (Z.eqb_spec (Z.sgn (Z.gcd k' tz - 1)) 0) as [F|_]; [exfalso; apply GK'; clear - F; lia|]. cbn [length] in HI. destruct (Z.ltb_spec (iter + 1) 1024) as [_|F]; [|lia].
    eapply wp_mono; [apply (IH (iter + 1) s' (ofZ k')); [exact C'|exact Hk'|rewrite ofZ_neg; destruct (Z.ltb_spec k' 0); [lia|reflexivity]|eapply has_same; [apply F'; auto|exact Ht]|eapply has_same; [apply F'; auto|exact Ho]|eexists; exact Hg'|intros b' Ib; apply HP; right; exact Ib|lia]|].
    intros rc s'' (-> & A1 & A2 & A3 & A4 & A5). split; auto. split; auto. split; [intros x Hx Nx; rewrite A2, F' by auto; reflexivity|]. split; [lia|]. auto.
Qed.
Lemma eg_secret_mem e n k t one tz bin rest kz pre s v0 : (forall i, grant e i = true) -> (k < n)%nat -> (t < n)%nat -> (one < n)%nat -> k <> t -> k <> one -> 0 < tz -> drawn tz bin kz -> Z.gcd kz tz = 1 ->
  calm n s -> has s k v0 -> neg v0 = false -> has s t (ofZ tz) -> has s one (ofZ 1) ->
  (forall b, In b pre -> exists k', drawn tz b k' /\ Z.gcd k' tz <> 1) -> (length pre < 1024)%nat ->
  wp (eg_secret_m n k t one (pre ++ bin :: rest)) e s (fun rc s' => rc = 0 /\ onto n k (ofZ kz) s s').
Proof.
  intros GR Lk Lt Lo Nkt Nko Pt DK GK C Hk N0 Ht Ho HP HI. unfold eg_secret_m.
  apply wp_check. eapply wp_mono; [apply init_ok|]. intros rc s1 (M1 & T1 & [(-> & Hn & _)|(_ & S & _)]); [|destruct (fed _ _ _ GR S)]. rewrite Z.eqb_refl.
  assert (F1 : forall y, (y < n)%nat -> mem s1 y = mem s y) by (intros y Hy; apply M1; lia). apply wp_finally.
  eapply wp_mono; [apply (rounds_mem e n k t one tz bin rest kz GR Lk Lt Lo Nkt Nko Pt DK GK pre 0 s1 v0); [intros y Hy; rewrite M1 by lia; apply C; lia|eapply has_same; [apply F1; auto|exact Hk]|exact N0|eapply has_same; [apply F1; auto|exact Ht]|eapply has_same; [apply F1; auto|exact Ho]|eexists; exact Hn|exact HP|lia]|].
  intros rc s2 (-> & A1 & A2 & A3 & A4 & A5). apply clear_ok; [exact A5|]. intros s3 (B1 & B2 & B3). split; auto. split; [|split; [|split]].
  - intros x Hx. destruct (Nat.eq_dec x n) as [->|Nx]; [right; exact B1|]. rewrite B2 by exact Nx. apply A1. lia.
  - intros x Hx Nx. rewrite B2, A2, F1 by lia. reflexivity.
  - lia.
  - eapply has_same; [apply B2; lia|exact A4].
Qed.
Theorem eg_sign_mem e s0 n c r s p g y d pre bin rest m k ki : (forall i, grant e i = true) -> calm n s0 -> (c + 3 < n)%nat -> (r < n)%nat -> (s < n)%nat ->
  r <> s -> ~ (c <= r < c + 4)%nat -> ~ (c <= s < c + 4)%nat -> holding s0 c [p; g; y; d] -> usable s0 r -> usable s0 s ->
  2 < p -> bytes m -> Z.of_nat (length m) <= count_bytes (ofZ p) ->
  (forall b, In b pre -> exists k', drawn (p - 1) b k' /\ Z.gcd k' (p - 1) <> 1) -> (length pre < 1024)%nat ->
  drawn (p - 1) bin k -> 0 <= k -> 0 <= ki < p - 1 -> (k * ki) mod (p - 1) = 1 ->
  wp (eg_sign2_m n c r s (pre ++ bin :: rest) m) e s0 (fun rc s' => rc = 0 /\ has s' r (ofZ (g ^ k mod p)) /\ has s' s (ofZ (((be_val m - d * (g ^ k mod p)) * ki) mod (p - 1))) /\
    calm n s' /\ (forall u, (u < n)%nat -> u <> r -> u <> s -> mem s' u = mem s0 u)).
Proof.
  intros GR C Lc Lr Ls Nrs Ncr Ncs (Hp & Hg & Hy & Hd & _) Ur Us Pp Bm Lm HP HI DK PK Bki EK.
  replace (S c) with (c + 1)%nat in Hg by lia. replace (S (S (S c))) with (c + 3)%nat in Hd by lia. clear Hy.
  assert (GK : Z.gcd k (p - 1) = 1).
  { apply Z.bezout_1_gcd. exists ki, (- ((k * ki) / (p - 1))). pose proof (Z.div_mod (k * ki) (p - 1) ltac:(lia)) as H. rewrite EK in H. lia. }
  change (hidden ((k * ki) mod (p - 1) = 1)) in EK.
  assert (N0 : c <> r /\ (c + 1)%nat <> r /\ (c + 3)%nat <> r) by lia. destruct N0 as (N0 & N1 & N3).
  unfold eg_sign2_m. apply wp_bind. eapply wp_peek; [exact Hp|]. destruct (Z.ltb_spec (count_bytes (ofZ p)) (Z.of_nat (length m))) as [F|_]; [lia|]. clear Lm.
  apply with_one_wp. intros s1 H1 M1 T1. apply wp_check. eapply wp_mono; [apply init_list_ok; [apply seq_NoDup|intros x []]|].
  intros rc s2 (M2 & T2 & [(-> & V2 & _)|(_ & S & _)]); [|destruct (fed _ _ _ GR S)]. rewrite Z.eqb_refl.
  assert (F2 : forall u, (u < n)%nat -> mem s2 u = mem s0 u) by (intros u Hu; rewrite M2, M1 by (try rewrite in_locals; auto; lia); reflexivity).
  assert (C2 : calm (n + 4) s2) by (intros u Hu; rewrite M2, M1 by (try rewrite in_locals; auto; lia); apply C; lia).
  assert (G2 : forall u v, (u < n)%nat -> has s0 u v -> has s2 u v) by (intros u v Hu; apply has_same; apply F2; exact Hu).
  assert (Ho2 : has s2 (n + 3) (ofZ 1)) by (eapply has_same; [apply M2; [rewrite in_locals; lia|auto]|exact H1]).
  assert (Hk2 : has s2 n mzero) by (apply V2; apply in_locals; lia). assert (Hz2 : has s2 (n + 1) mzero) by (apply V2; apply in_locals; lia). assert (Ht2 : has s2 (n + 2) mzero) by (apply V2; apply in_locals; lia).
  clear M2 V2 H1 M1 T1 T2 s1. apply wp_finally. set (rz := g ^ k mod p). set (sz := ((be_val m - d * rz) * ki) mod (p - 1)).
  eapply wp_mono with (P := fun (rc : Z) t => rc = 0 /\ calm (n + 4) t /\ (forall u, (u < n)%nat -> u <> r -> u <> s -> mem t u = mem s0 u) /\ has t r (ofZ rz) /\ has t s (ofZ sz) /\ usable t n /\ usable t (n + 1) /\ usable t (n + 2)).
  2:{ intros rc t (-> & D1 & D2 & D3 & D4 & D5 & D6 & D7). eapply wp_mono; [apply clear_list_ok|].
      { intros u Hu. apply in_locals in Hu. assert (E : u = n \/ u = (n + 1)%nat \/ u = (n + 2)%nat) by (clear - Hu; lia). destruct E as [-> | [-> | ->]]; apply usable_live; auto. }
      intros _ t2 (A1 & A2 & A3). assert (F : forall u, (u < n)%nat -> mem (put t2 (n + 3) void) u = mem t u) by (intros u Hu; rewrite put_other by lia; apply A2; rewrite in_locals; lia).
      split; auto. split; [eapply has_same; [apply F; auto|exact D3]|]. split; [eapply has_same; [apply F; auto|exact D4]|]. split.
      - intros u Hu. destruct (Nat.eq_dec u (n + 3)) as [->|Nu]; [right; apply put_same|]. rewrite put_other by exact Nu. destruct (in_dec Nat.eq_dec u (locals n 3)) as [I|I]; [right; apply A1; exact I|]. rewrite A2 by exact I. rewrite in_locals in I. apply D1. clear - I Hu Nu. lia.
      - intros u Hu N1' N2'. rewrite F by auto. auto. }
  (* t *)
  eapply (on_chk e (n + 4) (n + 2)); [exact GR|nl|exact C2|apply copy_after; [exact C2|nl|eexists; exact Ht2|apply G2; [nl|exact Hp]]|]. intros t1 O1. pose proof (onto_val _ _ _ _ _ O1) as H1t.
  eapply (on_chk e (n + 4) (n + 2)); [exact GR|nl|exact (proj1 O1)|eapply sub_safe; [exact (proj1 O1)|nl|eexists; exact H1t|exact H1t|eapply onto_has; [exact O1|nl|nl|exact Ho2]]|]. intros t2 O2. pose proof (onto_val _ _ _ _ _ O2) as H2t.
  assert (K2 : forall u v, (u < n + 4)%nat -> u <> (n + 2)%nat -> has s2 u v -> has t2 u v) by (intros u v Hu Nu H; eapply onto_has; [exact O2|nl|nl|eapply onto_has; [exact O1|nl|nl|exact H]]).
  (* k *)
  apply wp_check. eapply wp_mono; [apply (eg_secret_mem e (n + 4) n (n + 2) (n + 3) (p - 1) bin rest k pre t2 mzero GR); [nl|nl|nl|nl|nl|lia|exact DK|exact GK|exact (proj1 O2)|apply K2; [nl|nl|exact Hk2]|reflexivity|exact H2t|apply K2; [nl|nl|exact Ho2]|exact HP|exact HI]|].
  intros rc t3 (-> & O3). rewrite Z.eqb_refl. pose proof (onto_val _ _ _ _ _ O3) as H3k.
  assert (K3 : forall u v, (u < n)%nat -> has s0 u v -> has t3 u v) by (intros u v Hu H; eapply onto_has; [exact O3|nl|nl|apply K2; [nl|nl|apply G2; assumption]]).
  assert (H3t : has t3 (n + 2) (ofZ (p - 1))) by (eapply onto_has; [exact O3|nl|nl|exact H2t]). assert (H3z : has t3 (n + 1) mzero) by (eapply onto_has; [exact O3|nl|nl|apply K2; [nl|nl|exact Hz2]]).
  (* r *)
  eapply (on_chk e (n + 4) r); [exact GR|nl|exact (proj1 O3)|apply (power_safe e t3 (n + 4) r (c + 1) n (Some c) g k (Some p)); [exact (proj1 O3)|nl|nl|nl|destruct Ur as (v & H); exists v; apply K3; assumption|apply K3; [nl|exact Hg]|exact H3k|split; [nl|split; [apply K3; [nl|exact Hp]|lia]]|exact PK|left; intro F; injection F; lia|apply GR]|].
  cbn [power]. fold rz. intros t4 O4. pose proof (onto_val _ _ _ _ _ O4) as H4r.
  (* z *)
  eapply (on_chk e (n + 4) (n + 1)); [exact GR|nl|exact (proj1 O4)|apply (load_bin_after e t4 (n + 4) (n + 1) mzero); [exact (proj1 O4)|nl|eapply onto_has; [exact O4|nl|nl|exact H3z]|reflexivity|exact Bm]|]. intros t5 O5. pose proof (onto_val _ _ _ _ _ O5) as H5z.
  assert (K5 : forall u v, (u < n)%nat -> u <> r -> has s0 u v -> has t5 u v) by (intros u v Hu Nu H; eapply onto_has; [exact O5|nl|nl|eapply onto_has; [exact O4|nl|nl|apply K3; assumption]]).
  assert (H5r : has t5 r (ofZ rz)) by (eapply onto_has; [exact O5|nl|nl|exact H4r]).
  assert (H5k : has t5 n (ofZ k)) by (eapply onto_has; [exact O5|nl|nl|eapply onto_has; [exact O4|nl|nl|exact H3k]]).
  assert (H5t : has t5 (n + 2) (ofZ (p - 1))) by (eapply onto_has; [exact O5|nl|nl|eapply onto_has; [exact O4|nl|nl|exact H3t]]).
  assert (Us5 : usable t5 s) by (destruct Us as (v & H); exists v; apply K5; [assumption|nl|assumption]).
  (* s *)
  eapply (on_chk e (n + 4) s); [exact GR|nl|exact (proj1 O5)|apply (mul_safe e t5 (n + 4) s (c + 3) r d rz); [exact (proj1 O5)|nl|nl|nl|exact Us5|apply K5; [nl|nl|exact Hd]|exact H5r]|]. intros t6 O6. pose proof (onto_val _ _ _ _ _ O6) as H6s.
  eapply (on_chk e (n + 4) s); [exact GR|nl|exact (proj1 O6)|eapply sub_safe; [exact (proj1 O6)|nl|eexists; exact H6s|eapply onto_has; [exact O6|nl|nl|exact H5z]|exact H6s]|]. intros t7 O7. pose proof (onto_val _ _ _ _ _ O7) as H7s.
  assert (H7t : has t7 (n + 2) (ofZ (p - 1))) by (eapply onto_has; [exact O7|nl|nl|eapply onto_has; [exact O6|nl|nl|exact H5t]]).
  eapply (on_chk e (n + 4) s); [exact GR|nl|exact (proj1 O7)|apply (mod_safe e t7 (n + 4) s s (n + 2) (be_val m - d * rz) (p - 1)); [exact (proj1 O7)|nl|nl|nl|exact H7s|exact H7t|eexists; exact H7s|lia|right; nl]|]. intros t8 O8. pose proof (onto_val _ _ _ _ _ O8) as H8s.
  assert (H8t : has t8 (n + 2) (ofZ (p - 1))) by (eapply onto_has; [exact O8|nl|nl|exact H7t]).
  assert (H8k : has t8 n (ofZ k)) by (eapply onto_has; [exact O8|nl|nl|eapply onto_has; [exact O7|nl|nl|eapply onto_has; [exact O6|nl|nl|exact H5k]]]).
  eapply (on_chk e (n + 4) n); [exact GR|nl|exact (proj1 O8)|apply (inv_to e t8 (n + 4) n n (n + 2) k (p - 1) ki GR (proj1 O8)); [nl|nl|nl|eexists; exact H8k|exact H8k|exact H8t|lia|nl|lia|exact EK]|]. intros t9 O9. pose proof (onto_val _ _ _ _ _ O9) as H9k.
  assert (H9s : has t9 s (ofZ ((be_val m - d * rz) mod (p - 1)))) by (eapply onto_has; [exact O9|nl|nl|exact H8s]).
  eapply (on_chk e (n + 4) s); [exact GR|nl|exact (proj1 O9)|apply (mul_safe e t9 (n + 4) s s n ((be_val m - d * rz) mod (p - 1)) ki); [exact (proj1 O9)|nl|nl|nl|eexists; exact H9s|exact H9s|exact H9k]|]. intros t10 O10. pose proof (onto_val _ _ _ _ _ O10) as H10s.
  assert (H10t : has t10 (n + 2) (ofZ (p - 1))) by (eapply onto_has; [exact O10|nl|nl|eapply onto_has; [exact O9|nl|nl|exact H8t]]).
  eapply (sure e (n + 4) (n + 4) s); [exact GR|nl|nl|exact (proj1 O10)|apply (mod_safe e t10 (n + 4) s s (n + 2) ((be_val m - d * rz) mod (p - 1) * ki) (p - 1)); [exact (proj1 O10)|nl|nl|nl|exact H10s|exact H10t|eexists; exact H10s|lia|right; nl]|].
  intros t11 O11. assert (ES : ((be_val m - d * rz) mod (p - 1) * ki) mod (p - 1) = sz) by (unfold sz; apply Z.mul_mod_idemp_l; lia). rewrite ES in O11. pose proof (onto_val _ _ _ _ _ O11) as H11s. clear ES.
  assert (E10 : forall u, (u < n + 4)%nat -> u <> s -> u <> n -> mem t11 u = mem t5 u).
  { destruct O6 as (_ & O6 & _), O7 as (_ & O7 & _), O8 as (_ & O8 & _), O9 as (_ & O9 & _), O10 as (_ & O10 & _), O11 as (_ & O11 & _). intros u Hu N1' N2'. rewrite O11, O10, O9, O8, O7, O6 by nl. reflexivity. }
  split; auto. split; [exact (proj1 O11)|]. split; [|split; [|split; [exact H11s|split; [|split]]]].
  - intros u Hu N1' N2'. rewrite E10 by nl. destruct O1 as (_ & O1 & _), O2 as (_ & O2 & _), O3 as (_ & O3 & _), O4 as (_ & O4 & _), O5 as (_ & O5 & _). rewrite O5, O4, O3, O2, O1 by nl. apply F2. exact Hu.
  - eapply has_same; [apply E10; nl|exact H5r].
  - exists (ofZ ki). eapply onto_has; [exact O11|nl|nl|eapply onto_has; [exact O10|nl|nl|exact H9k]].
  - exists (ofZ (be_val m)). eapply has_same; [apply E10; nl|exact H5z].
  - exists (ofZ (p - 1)). eapply has_same; [apply E10; nl|exact H5t].
Qed.
