(** Correctness of the DSA key generation. *)
From Coq Require Import Znumtheory.
From Verif Require Import Base Bits BytesSpec Bytes Lists Fermat NumTh MpiModel MpiSpec MpiDigits MpiMulModel MpiMul MpiMul2 MpiSqr MpiCanon MpiDivModel MpiDiv MpiAlgModel MpiAlg MpiAlg2 MpiIOModel MpiIO MpiTextSpec MpiRand MrDraws PkModel PkSpec Pk KeygenModel KeygenSpec Keygen.

Ltac Zify.zify_post_hook ::= idtac.

Lemma rand_cases rs alloc bits bin : rand rs alloc bits bin = UB \/ exists r, rand rs alloc bits bin = Ok r.
Proof. unfold rand. destruct (bits =? 0); [eauto|]. cbv zeta. destruct (_ <=? _)%nat; [eauto|]. destruct (_ <=? _)%nat; eauto. Qed.

Lemma rand_range_cases alloc n bin : 0 < n -> draw_for n bin -> rand_range false alloc (ofZ n) bin = UB \/ exists r, rand_range false alloc (ofZ n) bin = Ok r.
Proof.
  intros Hn [HB L]. unfold rand_range. destruct (rand_cases false alloc (count_bits (ofZ n)) bin) as [->|[r R]]; [left; reflexivity|].
  rewrite R. cbn [bind]. right. pose proof (Z.log2_nonneg n).
  apply rand_value in R; auto; [|rewrite cb_log by auto; lia|rewrite cb_log, L by auto; f_equal; lia]. rewrite R.
  destruct (_ <=? _); [|eauto]. rewrite mod_ofZ by auto. eauto.
Qed.

Lemma passes_no_err P d rc : 1 < P -> draw_for P d -> passes_mr (ofZ P) d <> Err rc.
Proof.
  intros HP HD. destruct (rand_range_cases 8 P d ltac:(lia) HD) as [U|[a R]].
  - destruct (calc_ok P HP) as (k & o & Ec & _). unfold passes_mr. rewrite Ec. cbn [bind]. rewrite U. discriminate.
  - destruct (passes_ok P d a HP HD R) as (r & -> & _). discriminate.
Qed.
Lemma mr_rounds_no_err P ds rc : 1 < P -> Forall (draw_for P) ds -> mr_rounds (ofZ P) ds <> Err rc.
Proof.
  intros HP. induction 1 as [|d ds Hd _ IH]; [discriminate|]. cbn [mr_rounds].
  destruct (passes_mr (ofZ P) d) as [[|]|e| |] eqn:E; cbn [bind]; try discriminate; auto.
  exfalso. revert E. apply passes_no_err; auto.
Qed.
Lemma test_no_err s P rc : source_ok s -> 0 < P -> test s (ofZ P) <> Err rc.
Proof.
  intros HS HP. destruct (Z.eq_dec P 1) as [->|N1]; [intro T; vm_compute in T; discriminate|].
  unfold test, is_prime. destruct (obviously_ok P small_primes) as (r & E & _); [lia| |].
  { eapply Forall_impl; [|apply small_primes_range]. cbn; intros; lia. }
  rewrite E. cbn [bind]. destruct (r =? 0); [|discriminate]. apply mr_rounds_no_err; [lia|].
  repeat (apply Forall_cons; [apply draw_slot; auto|]). constructor.
Qed.

Lemma draw_bound s bits r : source_ok s -> 0 <= bits -> draw s bits = Ok r -> exists v, r = ofZ v /\ 0 <= v < 2 ^ bits.
Proof.
  intros HS Hb H. unfold draw in H. destruct (Z.eq_dec bits 0) as [->|].
  - unfold rand in H. cbn in H. injection H as <-. exists 0. split; [reflexivity|]. rewrite Z.pow_0_r. lia.
  - destruct (HS [] (Z.to_nat ((bits + 7) / 8))) as [HB HL]. apply rand_value in H; auto; [|lia|rewrite HL, Z2Nat.id; auto; apply Z.div_pos; lia].
    eexists. split; [exact H|]. apply drawn_bound; [lia|]. apply (be_val_bound _ HB).
Qed.
Lemma draw_range_bound s m r : source_ok s -> 0 < m -> draw_range s (ofZ m) = Ok r -> exists v, r = ofZ v /\ 0 <= v < m.
Proof. intros HS Hm H. unfold draw_range in H. apply rand_range_range in H; auto. apply draw_slot; auto. Qed.

Lemma find_p_inv s pbits Q : source_ok s -> 0 <= pbits -> 1 < Q -> forall n j p, dsa_find_p n j s pbits (ofZ Q) = Ok (Some p) ->
  exists P, p = ofZ P /\ accepted P /\ (2 * Q | P - 1) /\ 1 < P < 2 ^ pbits.
Proof.
  intros HS Hb HQ. induction n as [|n IH]; intros j p H; cbn [dsa_find_p] in H; [discriminate|].
  destruct (draw (at_ (at_ s j) 0) pbits) as [r| | |] eqn:D; cbn [bind] in H; try discriminate.
  destruct (draw_bound _ _ _ (source_at _ 0 (source_at s j HS)) Hb D) as (v & -> & Hv).
  rewrite add_ofZ in H. cbn [bind] in H. rewrite mod_ofZ in H by lia. cbn [bind] in H. rewrite sub_ofZ in H. cbn [bind] in H.
  rewrite <- ofZ_1, add_ofZ in H. cbn [bind] in H. set (P := v - v mod (Q + Q) + 1) in *.
  pose proof (Z.mod_pos_bound v (Q + Q) ltac:(lia)) as MB. pose proof (Z.div_mod v (Q + Q) ltac:(lia)) as DM.
  pose proof (Z.mod_le v (Q + Q) ltac:(lia) ltac:(lia)) as ML.
  assert (HP : 0 < P) by (unfold P; lia).
  destruct (test (at_ s j) (ofZ P)) as [[|]|e| |] eqn:T; cbn [bind] in H; try discriminate.
  - injection H as <-. exists P. split; [reflexivity|]. destruct (test_accepted _ _ (source_at s j HS) (Z.lt_le_incl _ _ HP) T) as [H1 A].
    split; [exact A|]. assert (DV : (2 * Q | P - 1)) by (exists (v / (Q + Q)); unfold P; lia). split; [exact DV|]. split; [exact H1|].
    assert (N : P <> 2 ^ pbits); [|unfold P in *; lia]. intro E. destruct DV as [k DV].
    assert (pbits <> 0) by (intros ->; rewrite Z.pow_0_r in E; lia).
    assert (E2 : 2 ^ pbits = 2 * 2 ^ (pbits - 1)) by (rewrite <- Z.pow_succ_r by lia; f_equal; lia).
    assert (2 * (k * Q) + 1 = 2 * 2 ^ (pbits - 1)) by lia. lia.
  - apply (IH _ _ H).
  - exfalso. revert T. apply test_no_err; auto. apply source_at; auto.
Qed.

Lemma find_g_inv s P T : source_ok s -> 2 < P -> 0 <= T -> forall n j g, dsa_find_g n j s (ofZ P) (ofZ (P - 1)) (ofZ T) = Ok (Some g) ->
  exists h, g = ofZ (h ^ T mod P) /\ 0 < h < P /\ 1 < h ^ T mod P.
Proof.
  intros HS HP HT. induction n as [|n IH]; intros j g H; cbn [dsa_find_g] in H; [discriminate|].
  destruct (draw_range (at_ s j) (ofZ (P - 1))) as [r| | |] eqn:D; cbn [bind] in H; try discriminate.
  destruct (draw_range_bound _ (P - 1) _ (source_at s j HS) ltac:(lia) D) as (v & -> & Hv).
  rewrite <- ofZ_1, add_ofZ in H. cbn [bind] in H. rewrite mod_exp_ofZ in H by lia. cbn [bind] in H. rewrite cmp_abs_ofZ in H.
  pose proof (Z.mod_pos_bound ((v + 1) ^ T) P ltac:(lia)) as MB.
  destruct (Z.ltb_spec 0 (Z.sgn (Z.abs ((v + 1) ^ T mod P) - Z.abs 1))) as [C|C]; [|apply (IH _ _ H)].
  injection H as <-. exists (v + 1). split; [reflexivity|]. split; [lia|lia].
Qed.

Theorem dsa_loop_inv s qbits pbits : source_ok s -> 0 <= qbits -> 0 <= pbits -> forall lim n i c0 c, dsa_loop lim n i s qbits pbits c0 = Ok c ->
  exists P Q G X, c = {| dsa_p := ofZ P; dsa_q := ofZ Q; dsa_g := ofZ G; dsa_pvt := ofZ X; dsa_pub := ofZ (G ^ X mod P) |} /\ dsa_made qbits pbits P Q G X.
Proof.
  intros HS Hq Hp lim. induction n as [|n IH]; intros i c0 c H; cbn [dsa_loop] in H; [discriminate|].
  destruct (mprime (at_ (at_ s i) 0) qbits None (dsa_q c0)) as [[[rq q] iq]| | |] eqn:MQ; cbn [bind] in H; try discriminate.
  destruct (Z.eqb_spec rq 0) as [->|]; cbn [negb] in H; [|discriminate].
  destruct (mprime_success _ _ _ _ _ _ (source_at _ 0 (source_at s i HS)) Hq MQ) as (_ & _ & _ & Q & -> & HQ & OQ & AQ & _).
  destruct (dsa_find_p lim 0 (at_ (at_ s i) 1) pbits (ofZ Q)) as [[p|]| | |] eqn:FP; cbn [bind] in H; try discriminate; [|apply (IH _ _ _ H)].
  destruct (find_p_inv _ _ _ (source_at _ 1 (source_at s i HS)) Hp (proj1 HQ) _ _ _ FP) as (P & -> & AP & DP & HP).
  rewrite <- ofZ_1, sub_ofZ in H. cbn [bind] in H. destruct (div_ofZ_nr (P - 1) Q ltac:(lia) ltac:(lia)) as (r & ED). rewrite ED in H. cbn [bind] in H.
  destruct DP as [k DP]. assert (KP : 0 < k) by nia.
  assert (ET : (P - 1) / Q = 2 * k) by (rewrite DP; replace (k * (2 * Q)) with (2 * k * Q) by ring; apply Z.div_mul; lia).
  set (T := (P - 1) / Q) in *. assert (HT : 0 < T) by lia. assert (P2 : 2 < P) by nia.
  destruct (dsa_find_g lim 0 (at_ (at_ s i) 2) (ofZ P) (ofZ (P - 1)) (ofZ T)) as [[g|]| | |] eqn:FG; cbn [bind] in H; try discriminate; [|apply (IH _ _ _ H)].
  destruct (find_g_inv _ _ _ (source_at _ 2 (source_at s i HS)) P2 (Z.lt_le_incl _ _ HT) _ _ _ FG) as (h & -> & Hh & HG).
  set (G := h ^ T mod P) in *.
  destruct (draw_range (at_ (at_ s i) 3) (ofZ T)) as [x| | |] eqn:DX; cbn [bind] in H; try discriminate.
  destruct (draw_range_bound _ _ _ (source_at _ 3 (source_at s i HS)) HT DX) as (X & -> & HX).
  rewrite mod_exp_ofZ in H by lia. cbn [bind] in H. injection H as <-.
  exists P, Q, G, X. split; [reflexivity|]. split; [exact AQ|]. split; [exact OQ|]. split; [exact HQ|]. split; [exact AP|].
  split; [exists k; exact DP|]. split; [exact HP|]. split; [exists h; split; [exact Hh|reflexivity]|]. split; [|exact HX]. split; [exact HG|].
  apply Z.mod_pos_bound. lia.
Qed.

Lemma keygen_loop s l c : dsa_keygen s l c = dsa_loop (Z.to_nat 4096) (Z.to_nat 1024) O s 160 ((512 + l * 64) mod 2 ^ 32) c.
Proof. unfold dsa_keygen. reflexivity. Qed.
Theorem dsa_keygen_ok s l c0 c : source_ok s -> 0 <= l -> dsa_keygen s l c0 = Ok c ->
  exists P Q G X, c = {| dsa_p := ofZ P; dsa_q := ofZ Q; dsa_g := ofZ G; dsa_pvt := ofZ X; dsa_pub := ofZ (G ^ X mod P) |} /\
    dsa_made 160 ((512 + l * 64) mod 2 ^ 32) P Q G X.
Proof.
  intros HS Hl H. pose proof (Z.mod_pos_bound (512 + l * 64) (2 ^ 32) ltac:(reflexivity)) as MB.
  rewrite keygen_loop in H. assert (L : 0 <= 160) by discriminate. revert MB H. generalize (Z.to_nat 4096) (Z.to_nat 1024) ((512 + l * 64) mod 2 ^ 32). intros lim n pb MB H.
  exact (dsa_loop_inv s 160 pb HS L (proj1 MB) lim n O c0 c H).
Qed.

(** With p and q prime the numbers are DSA domain parameters. *)
Theorem dsa_made_domain qbits pbits P Q G X : dsa_made qbits pbits P Q G X -> prime P -> prime Q -> dsa_domain P Q G.
Proof.
  intros (_ & _ & HQ & _ & DP & HP & (h & Hh & EG) & HG & _) PP PQ. split; [exact PP|]. split; [exact PQ|].
  destruct DP as [k DP]. assert (KP : 0 < k) by nia.
  assert (ET : (P - 1) / Q = 2 * k) by (rewrite DP; replace (k * (2 * Q)) with (2 * k * Q) by ring; apply Z.div_mul; lia).
  split; [exists (2 * k); rewrite DP; ring|]. rewrite EG, ET, pow_mod by lia. rewrite <- Z.pow_mul_r by lia.
  replace (2 * k * Q) with (P - 1) by lia. apply fermat1; auto. intro D. apply Z.divide_pos_le in D; lia.
Qed.
(** g has order q: no smaller positive power of it is 1. *)
Theorem dsa_made_order qbits pbits P Q G X : dsa_made qbits pbits P Q G X -> prime P -> prime Q -> forall i, 0 < i < Q -> G ^ i mod P <> 1.
Proof.
  intros M PP PQ i Hi E. destruct (dsa_made_domain _ _ _ _ _ _ M PP PQ) as (_ & _ & _ & GQ). destruct M as (_ & _ & HQ & _ & _ & HP & _ & HG & _).
  assert (G1 : G ^ Z.gcd i Q mod P = 1) by (apply (pow_gcd G P ltac:(lia) (S (Z.to_nat Q))); auto; lia).
  assert (EG : Z.gcd i Q = 1).
  { apply Zgcd_1_rel_prime. apply rel_prime_sym. apply prime_rel_prime; auto. intro D. apply Z.divide_pos_le in D; lia. }
  rewrite EG, Z.pow_1_r, Z.mod_small in G1 by lia. lia.
Qed.
