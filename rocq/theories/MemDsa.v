(** Memory-level DSA: while no allocation is refused, and once memory runs out. *)
From Coq Require Import Znumtheory.
From Verif Require Import Base Lists BytesSpec Bytes Bits MpiModel MpiSpec MpiDigits MpiMulModel MpiCanon MpiDivModel MpiDiv MpiAlgModel MpiAlg MpiAlg2 MpiIOModel MpiIO MpiTextSpec MpiRand Pk PkModel PkSpec NumTh MemModel MemMulModel MemDivModel MemAlgModel MemSpec Mem MemOps MemShift MemLeaf MemMul MemSim MemToom MemMulSafe MemDiv MemDivSafe MemLoc MemGcd MemExp MemAlgSpec MemAlgSafe MemInv MemEcpModel MemEcpSpec MemEcp MemEcpMul MemBin MemEcdsa MemEcpFail MemPkModel MemPkSpec MemFair.
Ltac Zify.zify_post_hook ::= idtac.

(** * Steps that lose the code *)
Lemma wp_try m f e s (Q : Z -> st -> Prop) : wp m e s (fun rc s' => if rc =? 0 then wp f e s' Q else Q 0 s') -> wp (try m; f) e s Q.
Proof. intro W. unfold lossy. apply wp_bind. eapply wp_mono; [exact W|]. intros rc s' H. cbv beta in *. destruct (rc =? 0); [exact H|apply wp_ret; exact H]. Qed.
Lemma vloc_try e n V s0 s i m b v M f (Q : Z -> st -> Prop) : (forall k, grant e k = true) -> vloc n V s0 s -> (i < length V)%nat -> (n + length V <= m)%nat ->
  wp M e s (after e m (n + i) b v s) -> (forall s', vloc n (upd V i v) s0 s' -> wp f e s' Q) -> wp (try M; f) e s Q.
Proof. intros G K I L W F. apply wp_try. eapply vloc_last; eauto. Qed.
Lemma vloc_try0 e n V s0 s m b v M f (Q : Z -> st -> Prop) : (forall k, grant e k = true) -> vloc n V s0 s -> (0 < length V)%nat -> (n + length V <= m)%nat ->
  wp M e s (after e m n b v s) -> (forall s', vloc n (upd V 0 v) s0 s' -> wp f e s' Q) -> wp (try M; f) e s Q.
Proof. intros G K I L W F. eapply (vloc_try e n V s0 s 0 m b v); eauto. rewrite Nat.add_0_r. exact W. Qed.
Lemma on_try e n r b v s M f (Q : Z -> st -> Prop) : (forall k, grant e k = true) -> (r < n)%nat -> calm n s ->
  wp M e s (after e n r b v s) -> (forall s', onto n r v s s' -> wp f e s' Q) -> wp (try M; f) e s Q.
Proof. intros G L C W K. apply wp_try. eapply (sure e n n r); eauto. Qed.
Ltac tstep0 G K tac := eapply vloc_try0; [exact G|exact K|cbn [length]; lia| |tac K|]; [cbn [length]; lia|cbn [upd]; clear K; intros ? K].
Ltac tstep G K i tac := eapply (vloc_try _ _ _ _ _ i); [exact G|exact K|cbn [length]; lia| |tac K|]; [cbn [length]; lia|cbn [upd]; clear K; intros ? K].

Lemma vloc_drop e n V s0 s (P : Z -> Prop) rc : vloc n V s0 s -> P rc -> wp (clear_list (locals n (length V))) e s (fun _ s' => P rc /\ untouched n s0 s').
Proof.
  intros (C & F & T & H) HP. eapply wp_mono; [apply clear_list_ok|].
  { intros y Hy. apply in_locals in Hy. replace y with (n + (y - n))%nat by lia. eapply has_live. apply H. lia. }
  intros _ s2 (A1 & A2 & A3). split; auto. split.
  - intros y Hy. destruct (in_dec Nat.eq_dec y (locals n (length V))) as [I|I]; [right; apply A1; exact I|]. rewrite A2 by exact I. rewrite in_locals in I. apply C. lia.
  - intros x Hx. rewrite A2 by (rewrite in_locals; lia). apply F. auto.
Qed.

(** * Verification *)
Theorem dsa_verify_mem e s0 n c r s p q g x y rv sv m : (forall k, grant e k = true) -> calm n s0 -> (c + 4 < n)%nat -> (r < n)%nat -> (s < n)%nat ->
  holding s0 c [p; q; g; x; y] -> has s0 r (ofZ rv) -> has s0 s (ofZ sv) -> 1 < p -> 1 < q -> bytes m ->
  wp (dsa_verify_m n c r s m) e s0 (fun rc s' =>
    dsa_verify {| dsa_p := ofZ p; dsa_q := ofZ q; dsa_g := ofZ g; dsa_pvt := ofZ x; dsa_pub := ofZ y |} (ofZ rv) (ofZ sv) m = Ok rc /\ untouched n s0 s').
Proof.
  intros GR C Lc Lr Ls (Hp & Hq & Hg & _ & Hy & _) Hr Hs Pp Pq Bm.
  replace (S c) with (c + 1)%nat in Hq by lia. replace (S (S c)) with (c + 2)%nat in Hg by lia. replace (S (S (S (S c)))) with (c + 4)%nat in Hy by lia.
  unfold dsa_verify_m. apply vloc_init0; [exact GR|exact C|]. cbn [repeat]. intros s1 K. apply wp_finally.
  set (D := fun rc : Z => dsa_verify {| dsa_p := ofZ p; dsa_q := ofZ q; dsa_g := ofZ g; dsa_pvt := ofZ x; dsa_pub := ofZ y |} (ofZ rv) (ofZ sv) m = Ok rc).
  eapply wp_mono with (P := fun rc s4 => exists V, vloc n V s0 s4 /\ length V = 4%nat /\ D rc).
  2:{ intros rc s4 (V & KV & L4 & Dc). rewrite <- L4. apply (vloc_drop e n V s0 s4 D); auto. }
  assert (HqK : has s1 (c + 1) (ofZ q)) by (eapply vloc_out; [exact K|lia|exact Hq]).
  destruct (has_elim _ _ _ HqK) as (Lq & Uq & _). apply wp_bind. apply wp_get; [exact Lq|]. rewrite Uq. clear Lq Uq HqK. set (z := be_val (firstn (8 * used (ofZ q)) m)).
  tstep0 GR K ltac:(fun K => apply (load_bin_after e _ _ n mzero); [exact (proj1 K)|cbn; lia|vval K|reflexivity|apply bytes_firstn; exact Bm]). fold z in K.
  tstep GR K 1%nat ltac:(fun K => apply copy_after; [exact (proj1 K)|cbn [length]; lia|vuse K|eapply vloc_out; [exact K|exact Ls|exact Hs]]).
  apply wp_try. eapply wp_mono; [apply (inv_safe e s'0 (n + 4) (n + 1) (n + 1) (c + 1) sv q GR); [vcalm K|lia|lia|lia|vuse K|vval K|vval K|lia|lia]|].
  intros rc s5 (C5 & (K5 & T5) & I1 & I2). destruct (Z.eq_dec (Z.gcd sv q) 1) as [E1|E1].
  2:{ destruct (I2 E1) as (-> & Mr). change (-1 =? 0) with false. cbv iota. exists [ofZ z; ofZ sv; mzero; mzero]. split; [|split; [reflexivity|]].
      - destruct K as (A1 & A2 & A3 & A4). split; [exact C5|]. split; [intros w Hw; rewrite K5 by lia; auto|]. split; [lia|].
        intros i Hi. eapply has_same; [|apply A4; exact Hi]. destruct (Nat.eq_dec i 1) as [->|Ni]; [exact Mr|]. cbn [length] in Hi. apply K5; lia.
      - apply dsa_verify_err; [lia|exact E1]. }
  destruct (I1 E1) as (-> & w & Hw & Rw & Ew). rewrite Z.eqb_refl. rewrite Z.mod_1_l in Ew by lia. clear I1 I2.
  assert (K' : vloc n [ofZ z; ofZ w; mzero; mzero] s0 s5).
  { destruct K as (A1 & A2 & A3 & A4). split; [exact C5|]. split; [intros u Hu; rewrite K5 by lia; auto|]. split; [lia|].
    intros i Hi. destruct (Nat.eq_dec i 1) as [->|Ni]; [exact Hw|]. cbn [length] in Hi.
    replace (nth i [ofZ z; ofZ w; mzero; mzero] mzero) with (nth i [ofZ z; ofZ sv; mzero; mzero] mzero) by (destruct i as [|[|i]]; [reflexivity|lia|reflexivity]).
    eapply has_same; [|apply A4; exact Hi]. apply K5; lia. }
  clear K C5 K5 T5 Hw. rename K' into K.
  destruct (dsa_verify_form p q g (ofZ x) y m rv sv Pp Pq Bm E1) as (w' & Hw' & Ew' & EV). fold z in EV.
  assert (w' = w). { apply (inv_unique q sv); auto; lia. } subst w'. clear Hw' Ew'. unfold D. rewrite EV. clear EV D.
  tstep0 GR K by_mul. tstep0 GR K by_mod. tstep GR K 1%nat by_mul. tstep GR K 1%nat by_mod.
  pose proof (Z.mod_pos_bound (z * w) q ltac:(lia)) as B1. pose proof (Z.mod_pos_bound (rv * w) q ltac:(lia)) as B2.
  assert (M1 : Some p <> Some 1) by (intro F; injection F; lia).
  assert (WM : forall t, has t c (ofZ p) -> with_modulus (n + 4) t (Some c) (Some p)) by (intros t Ht; split; [lia|split; [exact Ht|lia]]).
  tstep GR K 2%nat ltac:(fun K => apply (power_safe e _ (n + 4) (n + 2) (c + 2) n (Some c) g ((z * w) mod q) (Some p)); [exact (proj1 K)|lia|lia|lia|vuse K|vval K|vval K|apply WM; vval K|lia|auto|apply GR]).
  tstep GR K 3%nat ltac:(fun K => apply (power_safe e _ (n + 4) (n + 3) (c + 4) (n + 1) (Some c) y ((rv * w) mod q) (Some p)); [exact (proj1 K)|lia|lia|lia|vuse K|vval K|vval K|apply WM; vval K|lia|auto|apply GR]).
  cbn [power] in K. tstep GR K 2%nat by_mul. tstep GR K 2%nat by_mod. tstep GR K 2%nat by_mod.
  apply wp_bind. eapply wp_peek; [vval K|]. apply wp_bind. eapply wp_peek; [eapply vloc_out; [exact K|exact Lr|exact Hr]|]. apply wp_ret. cbn [nth]. rewrite cmp_abs_ofZ.
  eexists. split; [exact K|]. split; [reflexivity|]. f_equal. rewrite <- Z.mul_mod by lia. fold (dsa_v p q g y z rv w). set (v := dsa_v p q g y z rv w).
  assert (Bv : 0 <= v < q) by (apply Z.mod_pos_bound; lia). rewrite (Z.abs_eq v) by lia. clearbody v. clear - Bv. replace (Z.sgn (v - Z.abs rv) =? 0) with (v =? Z.abs rv) by lia. reflexivity.
Qed.

(** * The secret of a signature *)
Lemma one_has s x : has (put s x (mkobj false 1 [1])) x (ofZ 1).
Proof. rewrite <- mone_ofZ. eapply has_intro; [apply put_same|cbn; lia|reflexivity]. Qed.
Lemma with_one_wp e x body s (Q : Z -> st -> Prop) :
  (forall s1, has s1 x (ofZ 1) -> (forall y, y <> x -> mem s1 y = mem s y) -> tick s1 = tick s -> wp body e s1 (fun rc s2 => Q rc (put s2 x void))) ->
  wp (with_one x body) e s Q.
Proof.
  intro H. unfold with_one. apply wp_bind. apply wp_set. apply wp_finally. eapply wp_mono; [apply H|].
  - apply one_has.
  - intros y N. apply put_other. exact N.
  - reflexivity.
  - intros rc s2 K. apply wp_set. exact K.
Qed.
Lemma prime_digits q : 0 < q < 2 ^ 512 -> 0 <= count_bits (ofZ q) /\ (ndigs (count_bits (ofZ q)) <= 8)%nat.
Proof.
  intros [H L]. pose proof (count_bits_ofZ q) as CB. replace (q =? 0) with false in CB by lia. rewrite Z.abs_eq in CB by lia. pose proof (Z.log2_nonneg q) as LN.
  assert (L2 : Z.log2 q < 512) by (apply Z.log2_lt_pow2; lia). split; [lia|]. unfold ndigs. rewrite CB. assert ((Z.log2 q + 1 - 1) / 64 < 8) by (apply Z.div_lt_upper_bound; lia). lia.
Qed.
Lemma secret_mem e s n k q qz bin v0 kz : (forall i, grant e i = true) -> calm n s -> (k < n)%nat -> (q < n)%nat -> k <> q -> has s k v0 -> neg v0 = false -> (8 <= len s k)%nat ->
  has s q (ofZ qz) -> 1 < qz < 2 ^ 512 -> draw_for qz bin -> dsa_secret (ofZ qz) bin = Ok (ofZ kz) ->
  wp (dsa_secret_m n k q bin) e s (fun rc s' => rc = 0 /\ onto n k (ofZ kz) s s').
Proof.
  intros GR C Lk Lq N Hk N0 L8 Hq Bq [HB HL] ES. unfold dsa_secret_m. apply with_one_wp. intros s1 H1 M1 T1.
  apply wp_check. eapply wp_mono; [apply init_ok|]. intros rc s2 (M2 & T2 & [(-> & Hn & _)|(_ & S & _)]); [|destruct (fed _ _ _ GR S)]. rewrite Z.eqb_refl.
  assert (H2o : has s2 (n + 1) (ofZ 1)) by (eapply has_same; [apply M2; lia|exact H1]).
  assert (F2 : forall y, (y < n)%nat -> mem s2 y = mem s y) by (intros y Hy; rewrite M2, M1 by lia; auto).
  assert (C2 : calm (n + 2) s2) by (intros y Hy; rewrite M2, M1 by lia; apply C; lia).
  assert (H2q : has s2 q (ofZ qz)) by (eapply has_same; [apply F2; auto|exact Hq]). assert (H2k : has s2 k v0) by (eapply has_same; [apply F2; auto|exact Hk]).
  assert (L2 : (8 <= len s2 k)%nat) by (unfold len, dat, ob in *; rewrite F2 by auto; exact L8).
  rewrite T1 in T2. clear M2 H1 M1 T1. apply wp_finally.
  eapply wp_mono with (P := fun (rc : Z) t => rc = 0 /\ calm (n + 2) t /\ (forall x, (x < n)%nat -> x <> k -> mem t x = mem s x) /\ (tick s <= tick t)%nat /\ has t k (ofZ kz) /\ live t n).
  2:{ intros rc t (-> & D1 & D2 & D3 & D4 & D5). apply clear_ok; [exact D5|]. intros t2 (B1 & B2 & B3). split; auto.
      split; [|split; [|split]].
      - intros x Hx. destruct (Nat.eq_dec x (n + 1)) as [->|Nx]; [right; apply put_same|]. rewrite put_other by auto. destruct (Nat.eq_dec x n) as [->|Nx']; [right; exact B1|]. rewrite B2 by auto. apply D1. lia.
      - intros x Hx Nx. rewrite put_other, B2 by lia. auto.
      - cbn [put tick]. lia.
      - eapply has_same; [rewrite put_other, B2 by lia; reflexivity|exact D4]. }
  eapply (on_try e (n + 2) n); [exact GR|lia|exact C2|apply copy_after; [exact C2|lia|eexists; exact Hn|exact H2q]|]. intros t1 O1. pose proof (onto_val _ _ _ _ _ O1) as H1n.
  eapply (on_try e (n + 2) n); [exact GR|lia|exact (proj1 O1)|eapply sub_safe; [exact (proj1 O1)|lia|eexists; exact H1n|exact H1n|eapply onto_has; [exact O1|lia|lia|exact H2o]]|]. intros t2 O2.
  pose proof (onto_val _ _ _ _ _ O2) as H2n.
  assert (Hq2 : has t2 q (ofZ qz)) by (eapply onto_has; [exact O2|lia|lia|eapply onto_has; [exact O1|lia|lia|exact H2q]]).
  assert (Hk2 : has t2 k v0) by (eapply onto_has; [exact O2|lia|lia|eapply onto_has; [exact O1|lia|lia|exact H2k]]).
  assert (Lt2 : (8 <= len t2 k)%nat). { destruct O1 as (_ & O1 & _), O2 as (_ & O2 & _). unfold len, dat, ob in *. rewrite O2, O1 by lia. exact L2. }
  apply wp_bind. eapply wp_peek; [exact Hq2|]. destruct (prime_digits qz ltac:(lia)) as [Cb Nd].
  pose proof (count_bits_ofZ qz) as CB. replace (qz =? 0) with false in CB by lia. rewrite Z.abs_eq in CB by lia. pose proof (Z.log2_nonneg qz) as LN.
  destruct (rand_ok false (len t2 k) (count_bits (ofZ qz)) bin) as (v & Ev & W & Ng & _); [lia|exact HB|rewrite HL, CB; f_equal; lia|left; lia|].
  assert (Cv : v = ofZ (mval v)). { apply is_ofZ; [apply wf_canon; auto; rewrite Ng; destruct (_ =? _); auto|reflexivity]. }
  assert (KV : kz = mval v mod (qz - 1) + 1).
  { unfold dsa_secret in ES. rewrite mone_ofZ, sub_ofZ, chk_ok in ES. destruct (rand_ok false 8 (count_bits (ofZ qz)) bin) as (v' & Ev' & _); [lia|exact HB|rewrite HL, CB; f_equal; lia|left; lia|].
    rewrite Ev', chk_ok in ES. rewrite (rand_det _ _ _ _ _ _ _ Ev' Ev), Cv, mod_ofZ, chk_ok, add_ofZ, chk_ok in ES by lia. apply ok_inj in ES. apply (f_equal mval) in ES. rewrite !mval_ofZ in ES. symmetry. exact ES. }
  eapply (on_try e (n + 2) k true (ofZ (mval v))); [exact GR|lia|exact (proj1 O2)| |].
  { eapply wp_mono; [eapply (rand_leaf e k _ bin t2 v0 v); [exact Hk2|exact Cb|rewrite N0; exact Ev|left; lia]|]. intros rc s' Lf. rewrite <- Cv. apply leaf_after; auto; [lia|exact (proj1 O2)]. }
  intros t3 O3. pose proof (onto_val _ _ _ _ _ O3) as H3k. assert (H3n : has t3 n (ofZ (qz - 1))) by (eapply onto_has; [exact O3|lia|lia|exact H2n]).
  eapply (on_try e (n + 2) k); [exact GR|lia|exact (proj1 O3)|apply (mod_safe e t3 (n + 2) k k n (mval v) (qz - 1)); [exact (proj1 O3)|lia|lia|lia|exact H3k|exact H3n|eexists; exact H3k|lia|right; lia]|].
  intros t4 O4. pose proof (onto_val _ _ _ _ _ O4) as H4k.
  assert (H4o : has t4 (n + 1) (ofZ 1)) by (eapply onto_has; [exact O4|lia|lia|eapply onto_has; [exact O3|lia|lia|eapply onto_has; [exact O2|lia|lia|eapply onto_has; [exact O1|lia|lia|exact H2o]]]]).
  eapply (on_try e (n + 2) k); [exact GR|lia|exact (proj1 O4)|apply (add_after e t4 (n + 2) k k (n + 1) (ofZ (mval v mod (qz - 1))) (ofZ 1) (ofZ kz) (proj1 O4)); [lia|eexists; exact H4k|exact H4k|exact H4o|rewrite KV; apply add_ofZ]|].
  intros t5 O5. apply wp_ret. split; auto. split; [exact (proj1 O5)|]. split; [|split; [|split; [exact (onto_val _ _ _ _ _ O5)|]]].
  - intros x Hx Nx. destruct O1 as (_ & O1 & _), O2 as (_ & O2 & _), O3 as (_ & O3 & _), O4 as (_ & O4 & _), O5 as (_ & O5 & _). rewrite O5, O4, O3, O2, O1 by lia. apply F2. auto.
  - destruct O1 as (_ & _ & O1 & _), O2 as (_ & _ & O2 & _), O3 as (_ & _ & O3 & _), O4 as (_ & _ & O4 & _), O5 as (_ & _ & O5 & _). lia.
  - apply (has_live _ _ (ofZ (qz - 1))). eapply onto_has; [exact O5|lia|lia|]. eapply onto_has; [exact O4|lia|lia|exact H3n].
Qed.

(** * Signing *)
Lemma inv_to e s n r a m x q w : (forall k, grant e k = true) -> calm n s -> (r < n)%nat -> (a < n)%nat -> (m < n)%nat -> usable s r -> has s a (ofZ x) -> has s m (ofZ q) ->
  1 < q -> r <> m -> 0 <= w < q -> (x * w) mod q = 1 -> wp (inv_m n r a m) e s (after e n r true (ofZ w) s).
Proof.
  intros G C Lr La Lm U Ha Hm Pq N Bw Ew. eapply wp_mono; [apply (inv_safe e s n r a m x q); auto; lia|]. intros rc s' (C' & K & I & _). split; auto. split; auto. left.
  assert (GC : Z.gcd x q = 1).
  { apply Z.bezout_1_gcd. exists w, (- ((x * w) / q)). pose proof (Z.div_mod (x * w) q ltac:(lia)). rewrite Ew in H. lia. }
  destruct (I GC) as (-> & w' & H' & B' & E'). rewrite Z.mod_1_l in E' by lia. split; auto. rewrite (inv_unique q x w w'); auto; lia.
Qed.
Definition hidden (P : Prop) : Prop := P.
Ltac nl := first [assumption | apply not_eq_sym; assumption | repeat match goal with H : ?T |- _ => lazymatch type of T with Prop => lazymatch T with (_ < _)%nat => fail | _ => clear H end end end; repeat match goal with x := _ |- _ => clearbody x end; lia | lia].
Theorem dsa_sign_mem e s0 n c r s p q g x y bin m : (forall k, grant e k = true) -> calm n s0 -> (c + 4 < n)%nat -> (r < n)%nat -> (s < n)%nat ->
  r <> s -> ~ (c <= r < c + 5)%nat -> ~ (c <= s < c + 5)%nat -> holding s0 c [p; q; g; x; y] -> usable s0 r -> usable s0 s ->
  1 < p -> prime q -> q < 2 ^ 512 -> draw_for q bin -> bytes m ->
  exists k ki, dsa_secret (ofZ q) bin = Ok (ofZ k) /\ 0 < k < q /\ (k * ki) mod q = 1 /\
  let z := be_val (firstn (8 * used (ofZ q)) m) in
  wp (dsa_sign_m n c r s bin m) e s0 (fun rc s' => rc = 0 /\ has s' r (ofZ ((g ^ k mod p) mod q)) /\ has s' s (ofZ (((x * ((g ^ k mod p) mod q) + z) * ki) mod q)) /\
    calm n s' /\ (forall u, (u < n)%nat -> u <> r -> u <> s -> mem s' u = mem s0 u)).
Proof.
  intros GR C Lc Lr Ls Nrs Ncr Ncs (Hp & Hq & Hg & Hx & Hy & _) Ur Us Pp Pq Lq HD Bm. pose proof (prime_ge_2 q Pq) as Q2.
  replace (S c) with (c + 1)%nat in Hq by lia. replace (S (S c)) with (c + 2)%nat in Hg by lia. replace (S (S (S c))) with (c + 3)%nat in Hx by lia. clear Hy.
  destruct (dsa_secret_ok q bin Pq Lq HD) as (k & ES & Hk). destruct (inv_ofZ k q ltac:(lia)) as [I _]. destruct (I (gcd_prime_small q k Pq Hk)) as (ki & _ & Hki & EK). rewrite Z.mod_1_l in EK by lia. clear I.
  exists k, ki. split; [exact ES|]. split; [exact Hk|]. split; [exact EK|]. intro z. change (hidden ((k * ki) mod q = 1)) in EK. assert (N0 : c <> r /\ (c + 1)%nat <> r /\ (c + 2)%nat <> r /\ (c + 3)%nat <> r /\ (c + 1)%nat <> s) by lia. destruct N0 as (N0 & N1 & N2 & N3 & N4). assert (Bq : hidden (1 < q < 2 ^ 512)) by (split; lia). clear Lq.
  unfold dsa_sign_m. apply loc_init; [exact C| |intros s' _ _ S; destruct (fed _ _ _ GR S)]. cbn [repeat]. intros s1 K0 L8.
  assert (L8n : (8 <= len s1 n)%nat) by (rewrite <- (Nat.add_0_r n); apply L8; nl). clear L8.
  assert (H1k : has s1 n mzero) by (change mzero with (ofZ 0); eapply loc_has0; [exact K0|cbn; nl|reflexivity]).
  assert (H1z : has s1 (n + 1) mzero) by (change mzero with (ofZ 0); eapply loc_has; [exact K0|cbn; nl|reflexivity]).
  assert (C1 : calm (n + 2) s1) by apply K0. assert (F1 : forall u, (u < n)%nat -> mem s1 u = mem s0 u) by apply K0. clear K0.
  assert (G1 : forall u v, (u < n)%nat -> has s0 u v -> has s1 u v) by (intros u v Hu; apply has_same; apply F1; exact Hu).
  apply wp_finally. set (rz := (g ^ k mod p) mod q). set (sz := ((x * rz + z) * ki) mod q).
  eapply wp_mono with (P := fun (rc : Z) t => rc = 0 /\ calm (n + 2) t /\ (forall u, (u < n)%nat -> u <> r -> u <> s -> mem t u = mem s0 u) /\ has t r (ofZ rz) /\ has t s (ofZ sz) /\ usable t n /\ usable t (n + 1)).
  2:{ intros rc t (-> & D1 & D2 & D3 & D4 & D5 & D6). eapply wp_mono; [apply clear_list_ok|].
      { intros u Hu. apply in_locals in Hu. assert (E : u = n \/ u = (n + 1)%nat) by nl. destruct E as [-> | ->]; apply usable_live; auto. }
      intros _ t2 (A1 & A2 & A3). assert (F : forall u, (u < n)%nat -> mem t2 u = mem t u) by (intros u Hu; apply A2; rewrite in_locals; nl).
      split; auto. split; [eapply has_same; [apply F; auto|exact D3]|]. split; [eapply has_same; [apply F; auto|exact D4]|]. split.
      - intros u Hu. destruct (in_dec Nat.eq_dec u (locals n 2)) as [I|I]; [right; apply A1; exact I|]. rewrite A2 by exact I. rewrite in_locals in I. apply D1. clear - I Hu. lia.
      - intros u Hu M1 M2. rewrite F by auto. auto. }
  assert (Hq1 : has s1 (c + 1) (ofZ q)) by (apply G1; [nl|exact Hq]). destruct (has_elim _ _ _ Hq1) as (Lvq & Uq & _). apply wp_bind. apply wp_get; [exact Lvq|]. rewrite Uq. clear Lvq Uq.
  (* z *)
  eapply (on_try e (n + 2) (n + 1)); [exact GR|nl|exact C1|apply (load_bin_after e s1 (n + 2) (n + 1) mzero); [exact C1|nl|exact H1z|reflexivity|apply bytes_firstn; exact Bm]|]. fold z. intros t1 O1.
  (* k *)
  assert (Hk1 : has t1 n mzero) by (eapply onto_has; [exact O1|nl|nl|exact H1k]). assert (Hq1' : has t1 (c + 1) (ofZ q)) by (eapply onto_has; [exact O1|nl|nl|exact Hq1]).
  assert (L81 : (8 <= len t1 n)%nat) by (destruct O1 as (_ & O1 & _); unfold len, dat, ob in *; rewrite O1 by nl; exact L8n).
  apply wp_try. eapply wp_mono; [apply (secret_mem e t1 (n + 2) n (c + 1) q bin mzero k GR (proj1 O1)); [nl|nl|nl|exact Hk1|reflexivity|exact L81|exact Hq1'|exact Bq|exact HD|exact ES]|].
  intros rc t2 (-> & O2). rewrite Z.eqb_refl. pose proof (onto_val _ _ _ _ _ O2) as Hk2.
  assert (K2 : forall u v, (u < n)%nat -> has s0 u v -> has t2 u v) by (intros u v Hu H; eapply onto_has; [exact O2|nl|nl|eapply onto_has; [exact O1|nl|nl|auto]]).
  assert (U2 : forall u, (u < n)%nat -> usable s0 u -> usable t2 u) by (intros u Hu (v & H); exists v; auto).
  assert (Hz2 : has t2 (n + 1) (ofZ z)) by (eapply onto_has; [exact O2|nl|nl|exact (onto_val _ _ _ _ _ O1)]).
  (* r *)
  eapply (on_try e (n + 2) r); [exact GR|nl|exact (proj1 O2)|apply (power_safe e t2 (n + 2) r (c + 2) n (Some c) g k (Some p)); [exact (proj1 O2)|nl|nl|nl|apply U2; auto|apply K2; [nl|exact Hg]|exact Hk2|split; [nl|split; [apply K2; [nl|exact Hp]|nl]]|nl|left; intro F; injection F; nl|apply GR]|].
  cbn [power]. intros t3 O3. pose proof (onto_val _ _ _ _ _ O3) as Hr3.
  assert (K3 : forall u v, (u < n)%nat -> u <> r -> has s0 u v -> has t3 u v) by (intros u v Hu Nu H; eapply onto_has; [exact O3|nl|auto|auto]).
  eapply (on_try e (n + 2) r); [exact GR|nl|exact (proj1 O3)|apply (mod_safe e t3 (n + 2) r r (c + 1) (g ^ k mod p) q); [exact (proj1 O3)|nl|nl|nl|exact Hr3|apply K3; [nl|nl|exact Hq]|eexists; exact Hr3|nl|right; nl]|].
  fold rz. intros t4 O4. pose proof (onto_val _ _ _ _ _ O4) as Hr4.
  assert (K4 : forall u v, (u < n)%nat -> u <> r -> has s0 u v -> has t4 u v) by (intros u v Hu Nu H; eapply onto_has; [exact O4|nl|auto|auto]).
  assert (Hk4 : has t4 n (ofZ k)) by (eapply onto_has; [exact O4|nl|nl|eapply onto_has; [exact O3|nl|nl|exact Hk2]]).
  assert (Hz4 : has t4 (n + 1) (ofZ z)) by (eapply onto_has; [exact O4|nl|nl|eapply onto_has; [exact O3|nl|nl|exact Hz2]]).
  (* 1 / k *)
  eapply (on_try e (n + 2) n); [exact GR|nl|exact (proj1 O4)|apply (inv_to e t4 (n + 2) n n (c + 1) k q ki GR (proj1 O4)); [nl|nl|nl|eexists; exact Hk4|exact Hk4|apply K4; [nl|nl|exact Hq]|nl|nl|nl|exact EK]|].
  intros t5 O5. pose proof (onto_val _ _ _ _ _ O5) as Hk5.
  assert (K5 : forall u v, (u < n)%nat -> u <> r -> has s0 u v -> has t5 u v) by (intros u v Hu Nu H; eapply onto_has; [exact O5|nl|nl|auto]).
  assert (Hr5 : has t5 r (ofZ rz)) by (eapply onto_has; [exact O5|nl|nl|exact Hr4]). assert (Hz5 : has t5 (n + 1) (ofZ z)) by (eapply onto_has; [exact O5|nl|nl|exact Hz4]).
  (* s *)
  assert (Us5 : usable t5 s) by (destruct Us as (v & H); exists v; apply K5; auto).
  eapply (on_try e (n + 2) s); [exact GR|nl|exact (proj1 O5)|apply (mul_safe e t5 (n + 2) s (c + 3) r x rz); [exact (proj1 O5)|nl|nl|nl|exact Us5|apply K5; [nl|nl|exact Hx]|exact Hr5]|].
  intros t6 O6. pose proof (onto_val _ _ _ _ _ O6) as Hs6.
  eapply (on_try e (n + 2) s); [exact GR|nl|exact (proj1 O6)|apply (add_after e t6 (n + 2) s s (n + 1) (ofZ (x * rz)) (ofZ z) (ofZ (x * rz + z)) (proj1 O6)); [nl|eexists; exact Hs6|exact Hs6|eapply onto_has; [exact O6|nl|nl|exact Hz5]|apply add_ofZ]|].
  intros t7 O7. pose proof (onto_val _ _ _ _ _ O7) as Hs7.
  assert (Hk7 : has t7 n (ofZ ki)) by (eapply onto_has; [exact O7|nl|nl|eapply onto_has; [exact O6|nl|nl|exact Hk5]]).
  eapply (on_try e (n + 2) s); [exact GR|nl|exact (proj1 O7)|apply (mul_safe e t7 (n + 2) s s n (x * rz + z) ki); [exact (proj1 O7)|nl|nl|nl|eexists; exact Hs7|exact Hs7|exact Hk7]|].
  intros t8 O8. pose proof (onto_val _ _ _ _ _ O8) as Hs8.
  assert (Hq8 : has t8 (c + 1) (ofZ q)) by (eapply onto_has; [exact O8|nl|nl|eapply onto_has; [exact O7|nl|nl|eapply onto_has; [exact O6|nl|nl|apply K5; [nl|nl|exact Hq]]]]).
  eapply (on_try e (n + 2) s); [exact GR|nl|exact (proj1 O8)|apply (mod_safe e t8 (n + 2) s s (c + 1) ((x * rz + z) * ki) q); [exact (proj1 O8)|nl|nl|nl|exact Hs8|exact Hq8|eexists; exact Hs8|nl|right; nl]|].
  fold sz. intros t9 O9. apply wp_ret. split; auto. split; [exact (proj1 O9)|]. split; [|split; [|split; [exact (onto_val _ _ _ _ _ O9)|]]].
  - intros u Hu M1 M2. destruct O1 as (_ & O1 & _), O2 as (_ & O2 & _), O3 as (_ & O3 & _), O4 as (_ & O4 & _), O5 as (_ & O5 & _), O6 as (_ & O6 & _), O7 as (_ & O7 & _), O8 as (_ & O8 & _), O9 as (_ & O9 & _).
    rewrite O9, O8, O7, O6, O5, O4, O3, O2, O1 by nl. auto.
  - do 4 (eapply onto_has; [eassumption|nl|auto|]). exact Hr5.
  - split; do 4 (eapply onto_use; [eassumption|nl|]); eexists; [exact Hk5|exact Hz5].
Qed.
