(** Correctness of prime generation. *)
From Coq Require Import Znumtheory.
From Verif Require Import Base Bits BytesSpec Bytes Lists NumTh MpiModel MpiSpec MpiDigits MpiMulModel MpiMul MpiMul2 MpiSqr MpiCanon MpiDivModel MpiDiv MpiAlgModel MpiAlg MpiAlg2 MpiIOModel MpiIO MpiTextSpec MpiRand MrDraws KeygenModel KeygenSpec.

Ltac Zify.zify_post_hook ::= idtac.

Lemma source_at s i : source_ok s -> source_ok (at_ s i).
Proof. intros H l n. apply H. Qed.

(** *** Setting a bit *)
Lemma lor_add a b y z k : 0 <= k -> 0 <= a < 2 ^ k -> 0 <= b < 2 ^ k -> Z.lor (a + 2 ^ k * y) (b + 2 ^ k * z) = Z.lor a b + 2 ^ k * Z.lor y z.
Proof.
  intros Hk Ha Hb. pose proof (lor_bound k a b Hk Ha Hb) as Hl.
  assert (E : forall u v, 0 <= u < 2 ^ k -> u + 2 ^ k * v = Z.lor u (Z.shiftl v k)).
  { intros u v Hu. rewrite Z.shiftl_mul_pow2 by auto. rewrite lor_small_shifted by auto. ring. }
  rewrite !E by auto. rewrite Z.shiftl_lor. rewrite <- !Z.lor_assoc. f_equal. rewrite !Z.lor_assoc. f_equal. apply Z.lor_comm.
Qed.

Lemma last_cat (a b : list Z) : b <> [] -> last (a ++ b) 0 = last b 0.
Proof. intro N. destruct (exists_last N) as (b' & x & ->). rewrite app_assoc, !last_last. reflexivity. Qed.
Lemma mset_bit_ofZ x bit : 0 <= x -> 0 <= bit -> (Z.to_nat (bit / 64) < used (ofZ x))%nat ->
  mset_bit (ofZ x) bit = ofZ (Z.lor x (2 ^ bit)).
Proof.
  intros Hx Hb HU. unfold mset_bit. apply Nat.ltb_lt in HU as HU'. rewrite HU'. clear HU'.
  pose proof (canon_ofZ x) as C. pose proof (canon_wf _ C) as [D NM]. pose proof (ofZ_val x) as V. rewrite Z.abs_eq in V by auto.
  set (i := Z.to_nat (bit / 64)) in *. set (b := bit mod 64).
  assert (Hbb : 0 <= b < 64) by (apply Z.mod_pos_bound; lia).
  assert (EB : bit = 64 * Z.of_nat i + b).
  { unfold i, b. rewrite Z2Nat.id by (apply Z.div_pos; lia). apply Z.div_mod. lia. }
  rewrite Z.shiftl_mul_pow2, Z.mul_1_l by lia. unfold used in HU.
  destruct (nth_split (dg (ofZ x)) 0 HU) as (l1 & l2 & E & L). set (d := nth i (dg (ofZ x)) 0) in *. clearbody d.
  rewrite E in *. rewrite <- L at 1. rewrite upd_app. apply digits_app in D as [D1 D2]. apply digits_cons in D2 as [Dd D2].
  assert (Hp : 0 <= 2 ^ b < 2 ^ 64) by (split; [apply Z.pow_nonneg; lia|apply Z.pow_lt_mono_r; lia]).
  pose proof (lor_bound 64 d (2 ^ b) ltac:(lia) Dd Hp) as Hl.
  assert (LP : 0 < Z.lor d (2 ^ b)).
  { assert (N : Z.lor d (2 ^ b) <> 0); [|lia]. intro Z0. apply Z.lor_eq_0_iff in Z0 as [_ Z0]. pose proof (pow2_pos b ltac:(lia)). lia. }
  apply is_ofZ.
  - apply wf_canon; cbn [neg dg]; [|rewrite ofZ_neg; lia]. split; cbn [dg].
    + apply digits_app. split; auto. apply digits_cons. split; auto.
    + right. destruct NM as [N0|N0]; [destruct l1; discriminate|].
      destruct l2 as [|e l2]; [rewrite last_last; lia|]. rewrite last_cat in * by discriminate. cbn [last] in *. exact N0.
  - unfold mval. cbn [neg dg]. rewrite ofZ_neg. destruct (Z.ltb_spec x 0); [lia|].
    rewrite !val_app, L in *. cbn [val] in *. pose proof (val_nonneg l1 D1) as P. pose proof (val_lt l1 D1) as Q. rewrite L in Q.
    rewrite B_pow in * by lia. rewrite <- V, EB, Z.pow_add_r by lia.
    rewrite <- (Z.add_0_l (2 ^ (64 * Z.of_nat i) * 2 ^ b)). rewrite lor_add by lia. rewrite Z.lor_0_r. f_equal. f_equal.
    change B with (2 ^ 64). replace (2 ^ b) with (2 ^ b + 2 ^ 64 * 0) at 2 by lia. rewrite lor_add by (try exact Dd; lia).
    rewrite Z.lor_0_r. reflexivity.
Qed.
Lemma mset_bit_out x bit : (used (ofZ x) <= Z.to_nat (bit / 64))%nat -> mset_bit (ofZ x) bit = ofZ x.
Proof. intro H. unfold mset_bit. apply Nat.ltb_ge in H. rewrite H. reflexivity. Qed.

(** *** A candidate *)
Definition cand (bits v : Z) : Z :=
  if 2 ^ (64 * ((bits - 1) / 64)) <=? v then Z.lor (Z.lor (Z.lor (2 ^ (bits - 1) + v mod 2 ^ (bits - 1)) 1) (2 ^ (bits - 1))) (2 ^ (bits - 2))
  else if v =? 0 then 0 else Z.lor v 1.

Lemma ndigs_pow bits : 0 < bits -> B ^ (Z.of_nat (ndigs bits) - 1) = 2 ^ (64 * ((bits - 1) / 64)).
Proof.
  intro H. destruct (ndigs_ok bits H). rewrite B_pow by lia. unfold ndigs. assert (0 <= (bits - 1) / 64) by (apply Z.div_pos; lia).
  rewrite Z2Nat.id by lia. f_equal. lia.
Qed.

Lemma lor_le a b : 0 <= a -> 0 <= b -> a <= Z.lor a b.
Proof.
  intros Ha Hb. apply Z.ldiff_le; [apply Z.lor_nonneg; auto|]. apply Z.bits_inj'. intros i Hi.
  rewrite Z.ldiff_spec, Z.lor_spec, Z.bits_0. destruct (Z.testbit a i); reflexivity.
Qed.

Lemma used_ge x k : 0 < x -> (k < used (ofZ x))%nat <-> B ^ Z.of_nat k <= x.
Proof.
  intro Hx. destruct (used_bounds x Hx) as [U0 U]. pose proof B_pos. split; intro H0.
  - eapply Z.le_trans; [|apply U]. apply Z.pow_le_mono_r; lia.
  - assert (B ^ Z.of_nat k < B ^ Z.of_nat (used (ofZ x))) by lia.
    apply Z.pow_lt_mono_r_iff in H1; [lia|change B with (2 ^ 64); lia|lia].
Qed.

Lemma candidate_value s bits p : source_ok s -> (8 | bits) -> 0 < bits -> candidate s bits = Ok p ->
  p = ofZ (cand bits (be_val (byt s [O] (Z.to_nat ((bits + 7) / 8))))).
Proof.
  intros HS H8 Hb E. unfold candidate, draw in E. cbn [cap byt at_] in E. destruct H8 as [k H8].
  set (bin := byt s [0%nat] _) in *. destruct (HS [0%nat] (Z.to_nat ((bits + 7) / 8))) as [HB HL]. fold bin in HB, HL.
  assert (L : Z.of_nat (length bin) = (bits + 7) / 8) by (rewrite HL, Z2Nat.id; auto; apply Z.div_pos; lia).
  destruct (rand false _ bits bin) as [r| | |] eqn:R; cbn [bind] in E; try discriminate.
  apply rand_value in R; auto. subst r. injection E as <-.
  pose proof (proj1 (be_val_bound bin HB)) as BB. set (v := be_val bin) in *. clearbody v. clear bin HB HL L.
  destruct (drawn_bound bits v Hb BB) as [DB DF]. unfold drawn, cand in *. rewrite ndigs_pow in * by auto.
  assert (D64 : 0 <= (bits - 1) / 64) by (apply Z.div_pos; lia).
  pose proof (Z.div_mod (bits - 1) 64 ltac:(lia)) as DM. pose proof (Z.mod_pos_bound (bits - 1) 64 ltac:(lia)) as MB.
  assert (Q2 : (bits - 2) / 64 = (bits - 1) / 64).
  { symmetry. apply (Z.div_unique (bits - 2) 64 ((bits - 1) / 64) ((bits - 1) mod 64 - 1)); [|lia]. left.
    assert ((bits - 1) mod 64 <> 0); [|lia]. intro Z0. rewrite Z0 in DM. lia. }
  set (T := 2 ^ (64 * ((bits - 1) / 64))) in *. assert (TP : 0 < T) by (apply pow2_pos; lia).
  assert (UG : forall x, T <= x -> (Z.to_nat ((bits - 1) / 64) < used (ofZ x))%nat).
  { intros x Hx. apply used_ge; [lia|]. rewrite Z2Nat.id, B_pow by auto. exact Hx. }
  pose proof (pow2_pos (bits - 1) ltac:(lia)) as P1. pose proof (pow2_pos (bits - 2) ltac:(lia)) as P2.
  assert (TL : T <= 2 ^ (bits - 1)) by (apply Z.pow_le_mono_r; lia).
  destruct (Z.leb_spec T v) as [LV|LV].
  - set (w := 2 ^ (bits - 1) + _) in *. specialize (DF LV).
    rewrite mset_bit_ofZ; [|lia|lia|change (Z.to_nat (0 / 64)) with 0%nat; specialize (UG w ltac:(lia)); lia]. rewrite Z.pow_0_r.
    pose proof (lor_le w 1 ltac:(lia) ltac:(lia)) as L1.
    rewrite mset_bit_ofZ; [|lia|lia|apply UG; lia].
    pose proof (lor_le (Z.lor w 1) (2 ^ (bits - 1)) ltac:(lia) ltac:(lia)) as L2.
    rewrite mset_bit_ofZ; [|lia|lia|rewrite Q2; apply UG; lia]. reflexivity.
  - assert (UL : forall x, 0 <= x < T -> (used (ofZ x) <= Z.to_nat ((bits - 1) / 64))%nat).
    { intros x Hx. apply wf_len_le; [apply canon_wf, canon_ofZ|]. rewrite ofZ_val, Z2Nat.id, B_pow by auto. rewrite Z.abs_eq by lia. apply Hx. }
    destruct (Z.eqb_spec v 0) as [->|NV].
    + rewrite (mset_bit_out 0 0) by (cbn; lia). rewrite mset_bit_out by (cbn; lia). apply mset_bit_out. cbn. lia.
    + assert (T1 : 1 < T) by lia.
      rewrite mset_bit_ofZ; [|lia|lia|apply used_ge; [lia|]; change (Z.of_nat (Z.to_nat (0 / 64))) with 0; rewrite Z.pow_0_r; lia]. rewrite Z.pow_0_r.
      assert (LB : 0 <= Z.lor v 1 < T) by (apply lor_bound; fold T; lia).
      rewrite mset_bit_out by (apply UL; auto). apply mset_bit_out. rewrite Q2. apply UL; auto.
Qed.

Lemma cand_bound bits v : (8 | bits) -> 0 < bits -> 0 <= v -> 0 <= cand bits v < 2 ^ bits /\ (v = 0 -> cand bits v = 0) /\ (v <> 0 -> Z.odd (cand bits v) = true) /\
  (2 ^ (64 * ((bits - 1) / 64)) <= v -> shaped bits (cand bits v)).
Proof.
  intros [k H8] Hb Hv. unfold cand.
  assert (D64 : 0 <= (bits - 1) / 64) by (apply Z.div_pos; lia).
  pose proof (Z.mul_div_le (bits - 1) 64 ltac:(lia)) as DM.
  set (T := 2 ^ (64 * ((bits - 1) / 64))) in *. assert (TP : 0 < T) by (apply pow2_pos; lia).
  pose proof (pow2_pos (bits - 1) ltac:(lia)) as P1. pose proof (pow2_pos (bits - 2) ltac:(lia)) as P2.
  assert (TL : T <= 2 ^ (bits - 1)) by (apply Z.pow_le_mono_r; lia).
  assert (E1 : 2 ^ bits = 2 * 2 ^ (bits - 1)) by (rewrite <- Z.pow_succ_r by lia; f_equal; lia).
  assert (E2 : 2 ^ (bits - 1) = 2 * 2 ^ (bits - 2)) by (rewrite <- Z.pow_succ_r by lia; f_equal; lia).
  assert (OL : forall a, 0 <= a -> Z.odd (Z.lor a 1) = true) by (intros; rewrite <- Z.bit0_odd, Z.lor_spec; apply Bool.orb_true_r).
  destruct (Z.leb_spec T v) as [LV|LV].
  - pose proof (Z.mod_pos_bound v (2 ^ (bits - 1)) P1) as MB. set (w := 2 ^ (bits - 1) + _) in *.
    assert (B1 : 0 <= Z.lor w 1 < 2 ^ bits) by (apply lor_bound; lia).
    assert (B2 : 0 <= Z.lor (Z.lor w 1) (2 ^ (bits - 1)) < 2 ^ bits) by (apply lor_bound; lia).
    assert (B3 : 0 <= Z.lor (Z.lor (Z.lor w 1) (2 ^ (bits - 1))) (2 ^ (bits - 2)) < 2 ^ bits) by (apply lor_bound; lia).
    set (c := Z.lor (Z.lor (Z.lor w 1) (2 ^ (bits - 1))) (2 ^ (bits - 2))) in *.
    assert (O : Z.odd c = true).
    { rewrite <- Z.bit0_odd. unfold c. rewrite !Z.lor_spec. change (Z.testbit 1 0) with true. rewrite Bool.orb_true_r. reflexivity. }
    split; [exact B3|]. split; [intros ->; lia|]. split; [auto|]. intros _. split; [|exact O]. split; [|apply B3].
    assert (EC : c = Z.lor (Z.lor w 1) (3 * 2 ^ (bits - 2))).
    { unfold c. rewrite <- (Z.lor_assoc _ (2 ^ (bits - 1))). f_equal.
      rewrite lor_add_disjoint; [lia|]. apply Z.bits_inj'. intros i Hi. rewrite Z.land_spec, Z.bits_0, !Z.pow2_bits_eqb by lia.
      destruct (Z.eqb_spec (bits - 1) i); [|reflexivity]. destruct (Z.eqb_spec (bits - 2) i); [lia|reflexivity]. }
    rewrite EC. rewrite Z.lor_comm. apply lor_le; lia.
  - destruct (Z.eqb_spec v 0) as [->|NV].
    + split; [lia|]. split; [auto|]. split; [lia|lia].
    + assert (B1 : 0 <= Z.lor v 1 < 2 ^ bits) by (apply lor_bound; lia). split; [exact B1|]. split; [lia|]. split; [auto|lia].
Qed.

(** *** The search *)
Lemma cb_log x : 0 < x -> count_bits (ofZ x) = Z.log2 x + 1.
Proof. intro H. rewrite count_bits_ofZ. destruct (Z.eqb_spec x 0); [lia|]. rewrite Z.abs_eq by lia. reflexivity. Qed.

Lemma draw_slot s P l : source_ok s -> 0 < P -> draw_for P (byt s l (Z.to_nat ((count_bits (ofZ P) + 7) / 8))).
Proof.
  intros HS HP. destruct (HS l (Z.to_nat ((count_bits (ofZ P) + 7) / 8))) as [HB HL]. split; [exact HB|]. rewrite HL, cb_log by auto.
  pose proof (Z.log2_nonneg P). rewrite Z2Nat.id by (apply Z.div_pos; lia). f_equal. lia.
Qed.

Lemma is_prime_gt1 P d1 d2 d3 d4 d5 : 0 <= P -> is_prime (ofZ P) d1 d2 d3 d4 d5 = Ok true -> 1 < P.
Proof.
  intros HP T. destruct (Z.eq_dec P 0) as [->|]; [vm_compute in T; discriminate|].
  destruct (Z.eq_dec P 1) as [->|]; [vm_compute in T; discriminate|]. lia.
Qed.

Lemma test_accepted s P : source_ok s -> 0 <= P -> test s (ofZ P) = Ok true -> 1 < P /\ accepted P.
Proof.
  intros HS HP T. unfold test in T. pose proof (is_prime_gt1 _ _ _ _ _ _ HP T) as H1. split; [exact H1|].
  eexists _, _, _, _, _. split; [|exact T].
  repeat (apply Forall_cons; [apply draw_slot; [exact HS|lia]|]). constructor.
Qed.

Lemma prime_loop_inv s bits itermax : forall n i p0 p j, (n + i = itermax)%nat -> prime_loop n i itermax s bits p0 = Ok (0, p, j) ->
  exists t, (i <= t)%nat /\ j = S t /\ (S t < itermax)%nat /\ candidate (at_ s t) bits = Ok p /\ test (at_ s t) p = Ok true /\
    forall u, (i <= u < t)%nat -> exists p', candidate (at_ s u) bits = Ok p' /\ test (at_ s u) p' = Ok false.
Proof.
  induction n as [|n IH]; intros i p0 p j HN H; cbn [prime_loop] in H; [discriminate|].
  destruct (candidate (at_ s i) bits) as [p1| | |] eqn:C; cbn [bind] in H; try discriminate.
  destruct (test (at_ s i) p1) as [[|]| | |] eqn:T; cbn [bind] in H; try discriminate.
  - destruct (Nat.eqb_spec (S i) itermax); [discriminate|]. injection H as <- <-. exists i. repeat split; auto; lia.
  - destruct (IH (S i) p1 p j ltac:(lia) H) as (t & H1 & H2 & H3 & H4 & H5 & H6). exists t. repeat split; auto; try lia.
    intros u Hu. destruct (Nat.eq_dec u i) as [->|]; [exists p1; auto|]. apply H6. lia.
Qed.

Lemma land7 bits : Z.land bits 7 = 0 <-> (8 | bits).
Proof.
  change 7 with (Z.ones 3). rewrite Z.land_ones by lia. change (2 ^ 3) with 8. apply Z.mod_divide. lia.
Qed.

Theorem mprime_success s bits iter p0 p i : source_ok s -> 0 <= bits -> mprime s bits iter p0 = Ok (0, p, i) ->
  0 < bits /\ (8 | bits) /\ (0 < i < itermax_of iter)%nat /\
  exists P, p = ofZ P /\ 1 < P < 2 ^ bits /\ Z.odd P = true /\ accepted P /\ (full bits (try_bytes s bits (i - 1)) -> shaped bits P).
Proof.
  intros HS Hb H. unfold mprime in H. fold (itermax_of iter) in H.
  destruct (Z.eqb_spec (Z.land bits 7) 0) as [L|]; [|discriminate]. cbn [negb orb] in H.
  destruct (Z.eqb_spec bits 0) as [|B0]; [discriminate|]. apply land7 in L.
  destruct (prime_loop_inv s bits (itermax_of iter) _ _ _ _ _ (Nat.add_0_r _) H) as (t & _ & -> & H3 & C & T & _).
  split; [lia|]. split; [exact L|]. split; [lia|]. cbn [Nat.sub]. rewrite Nat.sub_0_r.
  apply candidate_value in C; auto; [|apply source_at; auto|lia]. cbn [byt at_] in C. fold (try_bytes s bits t) in C.
  assert (HV : 0 <= be_val (try_bytes s bits t)) by (destruct (HS [t; O] (Z.to_nat ((bits + 7) / 8))) as [HB _]; apply (be_val_bound _ HB)).
  destruct (cand_bound bits _ L ltac:(lia) HV) as (R & Z0 & O & F). set (v := be_val _) in *. rewrite C in T |- *.
  destruct (test_accepted (at_ s t) (cand bits v) (source_at _ _ HS) (proj1 R) T) as [H1 A].
  exists (cand bits v). split; [reflexivity|]. split; [lia|]. split; [|split; [exact A|exact F]].
  apply O. intro E. rewrite (Z0 E) in H1. lia.
Qed.

(** The five rounds draw at five places. *)
Theorem mprime_rounds s bits iter p0 p i : source_ok s -> 0 <= bits -> mprime s bits iter p0 = Ok (0, p, i) ->
  exists P, p = ofZ P /\ Forall (draw_for P) (map (round_bytes s P (i - 1)) [1; 2; 3; 4; 5]%nat) /\
  is_prime (ofZ P) (round_bytes s P (i - 1) 1) (round_bytes s P (i - 1) 2) (round_bytes s P (i - 1) 3) (round_bytes s P (i - 1) 4) (round_bytes s P (i - 1) 5) = Ok true.
Proof.
  intros HS Hb H. destruct (mprime_success _ _ _ _ _ _ HS Hb H) as (_ & _ & _ & P & -> & P1 & _).
  unfold mprime in H. fold (itermax_of iter) in H.
  destruct (Z.eqb_spec (Z.land bits 7) 0) as [L|]; [|discriminate]. cbn [negb orb] in H.
  destruct (Z.eqb_spec bits 0) as [|B0]; [discriminate|].
  destruct (prime_loop_inv s bits (itermax_of iter) _ _ _ _ _ (Nat.add_0_r _) H) as (t & _ & -> & _ & _ & T & _).
  cbn [Nat.sub]. rewrite Nat.sub_0_r. exists P. split; [reflexivity|].
  assert (E : forall j, byt (at_ s t) [j] (Z.to_nat ((count_bits (ofZ P) + 7) / 8)) = round_bytes s P t j).
  { intro j. unfold round_bytes. cbn [byt at_]. rewrite count_bits_ofZ. destruct (Z.eqb_spec P 0); [lia|]. rewrite Z.abs_eq by lia. do 2 f_equal. f_equal. lia. }
  split.
  - cbn [map]. rewrite <- !E. repeat (apply Forall_cons; [apply draw_slot; [apply source_at; exact HS|lia]|]). constructor.
  - unfold test in T. rewrite !E in T. exact T.
Qed.

Lemma prime_loop_found s bits itermax t p : candidate (at_ s t) bits = Ok p -> test (at_ s t) p = Ok true ->
  forall n i p0, (n + i = itermax)%nat -> (i <= t < itermax)%nat ->
  (forall u, (i <= u < t)%nat -> exists p', candidate (at_ s u) bits = Ok p' /\ test (at_ s u) p' = Ok false) ->
  prime_loop n i itermax s bits p0 = Ok (if (S t =? itermax)%nat then -1 else 0, p, S t).
Proof.
  intros C T. induction n as [|n IH]; intros i p0 HN Ht HU; [lia|]. cbn [prime_loop].
  destruct (Nat.eq_dec i t) as [->|].
  - rewrite C. cbn [bind]. rewrite T. reflexivity.
  - destruct (HU i ltac:(lia)) as (p' & C' & T'). rewrite C'. cbn [bind]. rewrite T'. cbn [bind]. apply IH; try lia.
    intros u Hu. apply HU. lia.
Qed.
Lemma prime_loop_none s bits itermax : forall n i p0, (n + i = itermax)%nat ->
  (forall u, (i <= u < itermax)%nat -> exists p', candidate (at_ s u) bits = Ok p' /\ test (at_ s u) p' = Ok false) ->
  exists p, prime_loop n i itermax s bits p0 = Ok (-1, p, itermax).
Proof.
  induction n as [|n IH]; intros i p0 HN HU; cbn [prime_loop]; [exists p0; do 2 f_equal; lia|].
  destruct (HU i ltac:(lia)) as (p' & C' & T'). rewrite C'. cbn [bind]. rewrite T'. cbn [bind]. apply IH; try lia.
  intros u Hu. apply HU. lia.
Qed.

Theorem mprime_found s bits iter p0 t p : 0 < bits -> (8 | bits) -> (t < itermax_of iter)%nat ->
  (forall u, (u < t)%nat -> exists p', candidate (at_ s u) bits = Ok p' /\ test (at_ s u) p' = Ok false) ->
  candidate (at_ s t) bits = Ok p -> test (at_ s t) p = Ok true ->
  mprime s bits iter p0 = Ok (if (S t =? itermax_of iter)%nat then -1 else 0, p, S t).
Proof.
  intros Hb H8 Ht HU C T. unfold mprime. fold (itermax_of iter). apply land7 in H8. rewrite H8. change (0 =? 0) with true. cbn [negb orb].
  destruct (Z.eqb_spec bits 0); [lia|]. apply prime_loop_found; auto; try lia. intros u Hu. apply HU. lia.
Qed.
Theorem mprime_none s bits iter p0 : 0 < bits -> (8 | bits) ->
  (forall u, (u < itermax_of iter)%nat -> exists p', candidate (at_ s u) bits = Ok p' /\ test (at_ s u) p' = Ok false) ->
  exists p, mprime s bits iter p0 = Ok (-1, p, itermax_of iter).
Proof.
  intros Hb H8 HU. unfold mprime. fold (itermax_of iter). apply land7 in H8. rewrite H8. change (0 =? 0) with true. cbn [negb orb].
  destruct (Z.eqb_spec bits 0); [lia|]. apply prime_loop_none; try lia. intros u Hu. apply HU. lia.
Qed.

(** A try that does not start with a digit of zeros, or fits the object, gives a
    candidate. *)
Lemma candidate_total s bits : source_ok s -> (8 | bits) -> 0 < bits ->
  (ndigs bits <= cap s [O])%nat \/ full bits (byt s [O] (Z.to_nat ((bits + 7) / 8))) ->
  candidate s bits = Ok (ofZ (cand bits (be_val (byt s [O] (Z.to_nat ((bits + 7) / 8)))))).
Proof.
  intros HS H8 Hb HC. destruct (HS [O] (Z.to_nat ((bits + 7) / 8))) as [HB HL].
  assert (E : exists p, candidate s bits = Ok p).
  { unfold candidate, draw. cbn [cap byt at_]. destruct (rand_ok false (cap s [O]) bits (byt s [O] (Z.to_nat ((bits + 7) / 8)))) as (r & -> & _); auto.
    - rewrite HL, Z2Nat.id; auto. apply Z.div_pos; lia.
    - rewrite ndigs_pow by auto. exact HC.
    - eexists. reflexivity. }
  destruct E as [p E]. rewrite E. f_equal. apply candidate_value; auto.
Qed.

(** *** Two such primes multiply to twice the length *)
Lemma shaped_product b P Q : 2 <= b -> shaped b P -> shaped b Q -> 2 ^ (2 * b - 1) <= P * Q < 2 ^ (2 * b).
Proof.
  intros Hb [[P1 P2] _] [[Q1 Q2] _]. pose proof (pow2_pos (b - 2) ltac:(lia)) as PP. set (k := 2 ^ (b - 2)) in *.
  assert (E1 : 2 ^ b = 4 * k) by (unfold k; change 4 with (2 ^ 2); rewrite <- Z.pow_add_r by lia; f_equal; lia).
  assert (E2 : 2 ^ (2 * b - 1) = 8 * (k * k)).
  { unfold k. change 8 with (2 ^ 3). rewrite <- !Z.pow_add_r by lia. f_equal. lia. }
  assert (E3 : 2 ^ (2 * b) = 16 * (k * k)).
  { unfold k. change 16 with (2 ^ 4). rewrite <- !Z.pow_add_r by lia. f_equal. lia. }
  rewrite E1 in *. rewrite E2, E3. clearbody k. clear - P1 P2 Q1 Q2 PP. nia.
Qed.
Lemma shaped_bits b P Q : 2 <= b -> shaped b P -> shaped b Q -> Z.log2 (P * Q) + 1 = 2 * b.
Proof.
  intros Hb HP HQ. destruct (shaped_product b P Q Hb HP HQ) as [L U].
  rewrite (Z.log2_unique (P * Q) (2 * b - 1)); [lia|lia|]. split; [exact L|]. replace (Z.succ (2 * b - 1)) with (2 * b) by lia. exact U.
Qed.

Lemma cand_forced bits v : (8 | bits) -> 0 < bits -> 2 ^ (64 * ((bits - 1) / 64)) <= v < 2 ^ bits -> cand bits v = forced bits v.
Proof.
  intros [k H8] Hb Hv. assert (D64 : 0 <= (bits - 1) / 64) by (apply Z.div_pos; lia).
  pose proof (pow2_pos (64 * ((bits - 1) / 64)) ltac:(lia)) as T0.
  assert (O1 : forall i, 0 <= i -> Z.testbit 1 i = (0 =? i)) by (intros i Hi; change 1 with (2 ^ 0); apply Z.pow2_bits_eqb; lia).
  unfold cand, forced. destruct (Z.leb_spec (2 ^ (64 * ((bits - 1) / 64))) v); [|lia].
  pose proof (pow2_pos (bits - 1) ltac:(lia)) as P1.
  assert (E3 : 3 * 2 ^ (bits - 2) + 1 = Z.lor (Z.lor 1 (2 ^ (bits - 1))) (2 ^ (bits - 2))).
  { assert (E2 : 2 ^ (bits - 1) = 2 * 2 ^ (bits - 2)) by (rewrite <- Z.pow_succ_r by lia; f_equal; lia).
    rewrite lor_add_disjoint. rewrite lor_add_disjoint; [lia|].
    - apply Z.bits_inj'. intros i Hi. rewrite Z.land_spec, Z.bits_0, O1, !Z.pow2_bits_eqb by lia.
      destruct (Z.eqb_spec 0 i); [|reflexivity]. destruct (Z.eqb_spec (bits - 1) i); [lia|reflexivity].
    - apply Z.bits_inj'. intros i Hi. rewrite Z.land_spec, Z.lor_spec, Z.bits_0, O1, !Z.pow2_bits_eqb by lia.
      destruct (Z.eqb_spec (bits - 2) i); [|apply Bool.andb_false_r]. destruct (Z.eqb_spec 0 i); [lia|]. destruct (Z.eqb_spec (bits - 1) i); [lia|reflexivity]. }
  rewrite E3. assert (EW : Z.lor (2 ^ (bits - 1) + v mod 2 ^ (bits - 1)) (2 ^ (bits - 1)) = Z.lor v (2 ^ (bits - 1))).
  { rewrite <- (lor_add_disjoint (2 ^ (bits - 1)) (v mod 2 ^ (bits - 1))).
    - apply Z.bits_inj'. intros i Hi. rewrite !Z.lor_spec, Z.pow2_bits_eqb by lia. destruct (Z.eqb_spec (bits - 1) i); [rewrite !Bool.orb_true_r; reflexivity|].
      rewrite !Bool.orb_false_r. cbn [orb]. destruct (Z_lt_le_dec i (bits - 1)); [apply Z.mod_pow2_bits_low; lia|].
      rewrite Z.mod_pow2_bits_high by lia. symmetry. apply (testbit_small v bits); lia.
    - apply Z.bits_inj'. intros i Hi. rewrite Z.land_spec, Z.bits_0, Z.pow2_bits_eqb by lia. destruct (Z.eqb_spec (bits - 1) i); [|reflexivity].
      subst i. rewrite Z.mod_pow2_bits_high by lia. reflexivity. }
  rewrite <- (Z.lor_assoc _ 1), (Z.lor_comm 1), Z.lor_assoc, EW, !Z.lor_assoc. reflexivity.
Qed.

Theorem mprime_search s bits iter p0 t : source_ok s -> 0 < bits -> (8 | bits) -> (t < itermax_of iter)%nat ->
  let P u := forced bits (be_val (try_bytes s bits u)) in
  (forall u, (u <= t)%nat -> full bits (try_bytes s bits u)) ->
  (forall u, (u < t)%nat -> test (at_ s u) (ofZ (P u)) = Ok false) -> test (at_ s t) (ofZ (P t)) = Ok true ->
  mprime s bits iter p0 = Ok (if (S t =? itermax_of iter)%nat then -1 else 0, ofZ (P t), S t).
Proof.
  intros HS Hb H8 Ht P HF HT HA.
  assert (C : forall u, (u <= t)%nat -> candidate (at_ s u) bits = Ok (ofZ (P u))).
  { intros u Hu. rewrite (candidate_total (at_ s u) bits (source_at _ _ HS) H8 Hb) by (right; apply (HF u Hu)).
    unfold P. rewrite <- cand_forced; auto. split; [apply (HF u Hu)|].
    destruct (HS [u; O] (Z.to_nat ((bits + 7) / 8))) as [HB HL]. pose proof (be_val_bound _ HB) as BB. fold (try_bytes s bits u) in BB, HL.
    rewrite HL, Z2Nat.id in BB by (apply Z.div_pos; lia). destruct H8 as [k H8].
    assert (E : (bits + 7) / 8 = k) by (symmetry; apply (Z.div_unique (bits + 7) 8 k 7); lia). rewrite E in BB.
    change 256 with (2 ^ 8) in BB. rewrite <- Z.pow_mul_r in BB by lia. rewrite H8 at 2. rewrite (Z.mul_comm k). apply BB. }
  apply mprime_found; auto. intros u Hu. exists (ofZ (P u)). split; [apply C; lia|apply HT; auto].
Qed.

(** *** RSA *)
