(** Runs of the key generations that show what they do not guarantee. *)
From Coq Require Import Znumtheory.
From Verif Require Import Base Bits BytesSpec Bytes Lists Fermat NumTh MpiModel MpiSpec MpiDigits MpiMulModel MpiMul MpiMul2 MpiSqr MpiCanon MpiDivModel MpiDiv MpiAlgModel MpiAlg MpiAlg2 MpiIOModel MpiIO MpiTextSpec MpiRand MrDraws PkModel PkSpec Pk KeygenModel KeygenSpec Keygen KeygenDsa.

Ltac Zify.zify_post_hook ::= idtac.

(** *** Draws that give a known number *)
Lemma be_val_small n v : 0 <= v < 256 ^ Z.of_nat n -> be_val (be_bytes n v) = v.
Proof. intro H. rewrite be_val_bytes. apply Z.mod_small, H. Qed.

(** a draw with the top bit set already is left as it is *)
Lemma drawn_top bits v : 0 < bits -> 2 ^ (bits - 1) <= v < 2 ^ bits -> drawn bits v = v.
Proof.
  intros Hb Hv. unfold drawn. rewrite ndigs_pow by auto. assert (D64 : 0 <= (bits - 1) / 64) by (apply Z.div_pos; lia).
  pose proof (Z.mul_div_le (bits - 1) 64 ltac:(lia)).
  assert (2 ^ (64 * ((bits - 1) / 64)) <= 2 ^ (bits - 1)) by (apply Z.pow_le_mono_r; lia).
  destruct (Z.leb_spec (2 ^ (64 * ((bits - 1) / 64))) v); [|lia].
  assert (E : 2 ^ bits = 2 * 2 ^ (bits - 1)) by (rewrite <- Z.pow_succ_r by lia; f_equal; lia).
  replace (v mod 2 ^ (bits - 1)) with (v - 2 ^ (bits - 1)); [lia|].
  apply (Z.mod_unique v (2 ^ (bits - 1)) 1); lia.
Qed.

Lemma draw_top s bits v : source_ok s -> 0 < bits -> 2 ^ (bits - 1) <= v < 2 ^ bits -> (ndigs bits <= cap s [])%nat ->
  be_val (byt s [] (Z.to_nat ((bits + 7) / 8))) = v -> draw s bits = Ok (ofZ v).
Proof.
  intros HS Hb Hv HC EV. unfold draw. destruct (HS [] (Z.to_nat ((bits + 7) / 8))) as [HB HL].
  assert (L : Z.of_nat (length (byt s [] (Z.to_nat ((bits + 7) / 8)))) = (bits + 7) / 8) by (rewrite HL, Z2Nat.id; auto; apply Z.div_pos; lia).
  destruct (rand_cases false (cap s []) bits (byt s [] (Z.to_nat ((bits + 7) / 8)))) as [U|[r R]].
  - exfalso. destruct (rand_ok false (cap s []) bits _ Hb HB L (or_introl HC)) as (r & R & _). congruence.
  - rewrite R. f_equal. apply rand_value in R; auto. rewrite R, EV, drawn_top by auto. reflexivity.
Qed.

Lemma draw_range_top alloc m v bin : 0 < m -> draw_for m bin -> (used (ofZ m) <= alloc)%nat ->
  2 ^ Z.log2 m <= v < 2 ^ (Z.log2 m + 1) -> be_val bin = v -> rand_range false alloc (ofZ m) bin = Ok (ofZ (v mod m)).
Proof.
  intros Hm HD HC Hv EV. destruct (rand_range_ok alloc m bin Hm HD (or_introl HC)) as (r & R & _).
  rewrite R. f_equal. apply rand_range_value in R; auto. rewrite R. unfold base_of. pose proof (Z.log2_nonneg m).
  rewrite EV, drawn_top; [reflexivity|lia|]. replace (Z.log2 m + 1 - 1) with (Z.log2 m) by lia. exact Hv.
Qed.

(** *** Five times the base 1 *)
Lemma passes_one P d : 1 < P -> draw_for P d -> rand_range false 8 (ofZ P) d = Ok (ofZ 1) -> passes_mr (ofZ P) d = Ok true.
Proof.
  intros HP HD R. destruct (calc_ok P HP) as (k & o & Ec & _ & _ & Po). unfold passes_mr. rewrite Ec. cbn [bind]. rewrite R. cbn [bind].
  rewrite mod_exp_ofZ by lia. rewrite Z.pow_1_l by lia. rewrite Z.mod_small by lia. reflexivity.
Qed.
Lemma test_one s P : source_ok s -> 1 < P -> P + 1 < 2 ^ (Z.log2 P + 1) -> (used (ofZ P) <= 8)%nat ->
  forallb (fun q => negb (P mod q =? 0)) small_primes = true ->
  (forall j, (1 <= j <= 5)%nat -> be_val (byt s [j] (Z.to_nat ((count_bits (ofZ P) + 7) / 8))) = P + 1) ->
  test s (ofZ P) = Ok true.
Proof.
  intros HS HP H1 HU HF HV. unfold test, is_prime. destruct (obviously_ok P small_primes) as (r & E & R); [lia| |].
  { eapply Forall_impl; [|apply small_primes_range]. cbn; intros; lia. }
  assert (ND : forall q, In q small_primes -> ~ (q | P)).
  { intros q Hq D. rewrite forallb_forall in HF. specialize (HF q Hq). apply Bool.negb_true_iff, Z.eqb_neq in HF. apply HF.
    apply Z.mod_divide; [|exact D]. pose proof small_primes_range as SR. rewrite Forall_forall in SR. specialize (SR q Hq). cbn beta in SR. lia. }
  rewrite E. cbn [bind]. destruct R as [[-> I]|[[-> (q & I & D & _)]|[-> _]]]; [exfalso; apply (ND P I), Z.divide_refl|exfalso; apply (ND q I D)|].
  change (0 =? 0) with true. cbv iota.
  assert (PJ : forall j, (1 <= j <= 5)%nat -> passes_mr (ofZ P) (byt s [j] (Z.to_nat ((count_bits (ofZ P) + 7) / 8))) = Ok true).
  { intros j Hj. assert (DF : draw_for P (byt s [j] (Z.to_nat ((count_bits (ofZ P) + 7) / 8)))) by (apply draw_slot; [exact HS|lia]).
    apply passes_one; auto. rewrite (draw_range_top 8 P (P + 1)); auto; [|lia|].
    - do 2 f_equal. symmetry. apply (Z.mod_unique (P + 1) P 1); lia.
    - pose proof (Z.log2_spec P ltac:(lia)). lia. }
  cbn [mr_rounds]. rewrite !PJ by lia. reflexivity.
Qed.

(** *** A run of the DSA key generation *)
Lemma to_nat_S z : 0 < z -> exists n, Z.to_nat z = S n.
Proof. intro H. exists (Z.to_nat (z - 1)). lia. Qed.

Lemma used8 x : 0 <= x < 2 ^ 512 -> (used (ofZ x) <= 8)%nat.
Proof. intro Hx. apply wf_len_le; [apply canon_wf, canon_ofZ|]. rewrite ofZ_val, Z.abs_eq, B_pow by apply Hx || lia. apply Hx. Qed.
Lemma ndigs8 b : 0 < b <= 512 -> (ndigs b <= 8)%nat.
Proof. intro Hb. unfold ndigs. assert ((b - 1) / 64 < 8) by (apply Z.div_lt_upper_bound; lia). lia. Qed.
Lemma log2_top b x : 0 < b -> 2 ^ (b - 1) <= x < 2 ^ b -> Z.log2 x = b - 1.
Proof. intros Hb Hx. apply Z.log2_unique; [lia|]. replace (Z.succ (b - 1)) with b by lia. exact Hx. Qed.
Lemma lt512 b x : b <= 512 -> 0 <= x < 2 ^ b -> 0 <= x < 2 ^ 512.
Proof. intros Hb Hx. assert (2 ^ b <= 2 ^ 512) by (apply Z.pow_le_mono_r; lia). lia. Qed.

Lemma mprime_first s qb Q p0 : source_ok s -> 0 < qb <= 512 -> (8 | qb) -> 2 ^ (qb - 1) <= Q -> Q + 1 < 2 ^ qb -> forced qb Q = Q ->
  forallb (fun q => negb (Q mod q =? 0)) small_primes = true ->
  be_val (byt s [0;0]%nat (Z.to_nat ((qb + 7) / 8))) = Q ->
  (forall j, (1 <= j <= 5)%nat -> be_val (byt s [0%nat;j] (Z.to_nat ((qb + 7) / 8))) = Q + 1) ->
  mprime s qb None p0 = Ok (0, ofZ Q, 1%nat).
Proof.
  intros HS Hqb Q8 Q0 Q1 FQ QF V1 V2. assert (2 ^ 1 <= 2 ^ (qb - 1)) by (apply Z.pow_le_mono_r; [lia|destruct Q8; lia]).
  assert (LQ : Z.log2 Q = qb - 1) by (apply log2_top; lia).
  assert (IM : (0 < itermax_of None)%nat) by (unfold itermax_of; lia).
  assert (D64 : 0 <= (qb - 1) / 64) by (apply Z.div_pos; lia). pose proof (Z.mul_div_le (qb - 1) 64 ltac:(lia)).
  pose proof (mprime_search s qb None p0 0 HS (proj1 Hqb) Q8 IM) as M. cbv zeta in M. unfold try_bytes in M. rewrite V1, FQ in M.
  rewrite M.
  - destruct (Nat.eqb_spec 1 (itermax_of None)); [exfalso; unfold itermax_of in *; lia|reflexivity].
  - intros u Hu. replace u with O by lia. unfold full. rewrite V1. eapply Z.le_trans; [|exact Q0]. apply Z.pow_le_mono_r; lia.
  - intros u Hu. lia.
  - apply test_one; auto; [apply source_at; auto|lia|rewrite LQ; replace (qb - 1 + 1) with qb by lia; exact Q1|apply used8, (lt512 qb); lia|].
    intros j Hj. rewrite cb_log by lia. rewrite LQ. replace (qb - 1 + 1) with qb by lia. cbn [byt at_]. apply V2. exact Hj.
Qed.

Lemma find_p_first s pb P Q n : source_ok s -> (forall l, (8 <= cap s l)%nat) -> 0 < pb <= 512 -> 0 < Q ->
  2 ^ (pb - 1) < P -> P + 1 < 2 ^ pb -> (2 * Q | P - 1) -> forallb (fun q => negb (P mod q =? 0)) small_primes = true ->
  be_val (byt s [0;0]%nat (Z.to_nat ((pb + 7) / 8))) = P - 1 ->
  (forall j, (1 <= j <= 5)%nat -> be_val (byt s [0%nat;j] (Z.to_nat ((pb + 7) / 8))) = P + 1) ->
  dsa_find_p (S n) 0 s pb (ofZ Q) = Ok (Some (ofZ P)).
Proof.
  intros HS HC Hpb HQ HP P1 DP PF V3 V4. assert (0 < 2 ^ (pb - 1)) by (apply pow2_pos; lia).
  assert (LP : Z.log2 P = pb - 1) by (apply log2_top; lia). cbn [dsa_find_p].
  rewrite (draw_top _ pb (P - 1)); [|apply source_at, source_at; auto|lia|lia|cbn [cap at_]; eapply Nat.le_trans; [apply ndigs8; lia|apply HC]|exact V3].
  cbn [bind]. rewrite add_ofZ. cbn [bind]. rewrite mod_ofZ by lia. cbn [bind].
  replace ((P - 1) mod (Q + Q)) with 0 by (symmetry; apply Z.mod_divide; [lia|]; replace (Q + Q) with (2 * Q) by lia; exact DP).
  rewrite sub_ofZ. cbn [bind]. rewrite <- ofZ_1, add_ofZ. cbn [bind]. replace (P - 1 - 0 + 1) with P by lia.
  rewrite test_one; auto; [apply source_at; auto|lia|rewrite LP; replace (pb - 1 + 1) with pb by lia; exact P1|apply used8, (lt512 pb); lia|].
  intros j Hj. rewrite cb_log by lia. rewrite LP. replace (pb - 1 + 1) with pb by lia. cbn [byt at_]. apply V4. exact Hj.
Qed.

Lemma find_g_first s pb P T h r n : source_ok s -> (forall l, (8 <= cap s l)%nat) -> 0 < pb <= 512 -> 2 ^ (pb - 1) < P -> P < 2 ^ pb -> 2 < P -> 0 <= T ->
  1 < h ^ T mod P -> 2 ^ (pb - 1) <= r < 2 ^ pb -> r mod (P - 1) = h - 1 ->
  be_val (byt s [0]%nat (Z.to_nat ((pb + 7) / 8))) = r ->
  dsa_find_g (S n) 0 s (ofZ P) (ofZ (P - 1)) (ofZ T) = Ok (Some (ofZ (h ^ T mod P))).
Proof.
  intros HS HC Hpb HP P1 P2 HT HG Hr Er V5. assert (0 < 2 ^ (pb - 1)) by (apply pow2_pos; lia).
  assert (LP : Z.log2 (P - 1) = pb - 1) by (apply log2_top; lia). cbn [dsa_find_g]. unfold draw_range. cbn [cap byt at_].
  assert (EB : Z.to_nat ((count_bits (ofZ (P - 1)) + 7) / 8) = Z.to_nat ((pb + 7) / 8)) by (rewrite cb_log, LP by lia; do 2 f_equal; lia).
  rewrite (draw_range_top _ (P - 1) r); [|lia| | |rewrite LP; replace (pb - 1 + 1) with pb by lia; exact Hr|rewrite EB; exact V5].
  - cbn [bind]. rewrite Er, <- ofZ_1, add_ofZ. cbn [bind]. replace (h - 1 + 1) with h by lia. rewrite mod_exp_ofZ by lia. cbn [bind].
    rewrite cmp_abs_ofZ. destruct (Z.ltb_spec 0 (Z.sgn (Z.abs (h ^ T mod P) - Z.abs 1))); [reflexivity|]. exfalso. clear - HG H0. lia.
  - apply (draw_slot s (P - 1) [0%nat]); auto. lia.
  - eapply Nat.le_trans; [|apply HC]. apply used8, (lt512 pb); lia.
Qed.

Theorem dsa_run s qb pb P Q h r T v lim n c0 : source_ok s -> (forall l, (8 <= cap s l)%nat) ->
  0 < qb <= 512 -> (8 | qb) -> 2 ^ (qb - 1) <= Q -> Q + 1 < 2 ^ qb -> forced qb Q = Q -> forallb (fun q => negb (Q mod q =? 0)) small_primes = true ->
  0 < pb <= 512 -> 2 ^ (pb - 1) < P -> P + 1 < 2 ^ pb -> forallb (fun q => negb (P mod q =? 0)) small_primes = true ->
  P - 1 = T * Q -> Z.even T = true -> 2 ^ Z.log2 T <= v < 2 ^ (Z.log2 T + 1) -> 1 < h ^ T mod P -> 2 ^ (pb - 1) <= r < 2 ^ pb -> r mod (P - 1) = h - 1 ->
  be_val (byt s [0;0;0;0]%nat (Z.to_nat ((qb + 7) / 8))) = Q ->
  (forall j, (1 <= j <= 5)%nat -> be_val (byt s [0%nat;0%nat;0%nat;j] (Z.to_nat ((qb + 7) / 8))) = Q + 1) ->
  be_val (byt s [0;1;0;0]%nat (Z.to_nat ((pb + 7) / 8))) = P - 1 ->
  (forall j, (1 <= j <= 5)%nat -> be_val (byt s [0%nat;1%nat;0%nat;j] (Z.to_nat ((pb + 7) / 8))) = P + 1) ->
  be_val (byt s [0;2;0]%nat (Z.to_nat ((pb + 7) / 8))) = r ->
  be_val (byt s [0;3]%nat (Z.to_nat ((Z.log2 T + 8) / 8))) = v ->
  let X := v mod T in
  dsa_loop (S lim) (S n) 0 s qb pb c0 = Ok {| dsa_p := ofZ P; dsa_q := ofZ Q; dsa_g := ofZ (h ^ T mod P); dsa_pvt := ofZ X; dsa_pub := ofZ ((h ^ T mod P) ^ X mod P) |}.
Proof.
  intros HS HC Hqb Q8 Q0 Q1 FQ QF Hpb HP P1 PF ET EV HX HG Hr Er V1 V2 V3 V4 V5 V6 X. cbn [dsa_loop].
  rewrite (mprime_first (at_ (at_ s 0) 0) qb Q) by (auto; apply source_at, source_at; auto).
  cbn [bind]. change (negb (0 =? 0)) with false. cbv iota. clear V1 V2 FQ QF Q1.
  assert (QP : 0 < Q) by (pose proof (pow2_pos (qb - 1) ltac:(clear - Hqb; lia)); clear - H Q0; lia).
  assert (PP : 0 < P - 1) by (pose proof (pow2_pos (pb - 1) ltac:(clear - Hpb; lia)); clear - H HP; lia).
  assert (TP : 0 < T) by (clear - ET PP QP; nia).
  assert (DP : (2 * Q | P - 1)) by (apply Zeven_bool_iff, Zeven_ex in EV as [k EV]; exists k; rewrite ET, EV; ring).
  assert (T2 : 1 < T) by (apply Zeven_bool_iff, Zeven_ex in EV as [k EV]; clear - EV TP; lia).
  assert (P2 : 2 < P) by (clear - ET T2 QP; nia).
  rewrite (find_p_first (at_ (at_ s 0) 1) pb P Q); auto; [|apply source_at, source_at; auto|intro l; apply HC].
  cbn [bind]. rewrite <- ofZ_1, sub_ofZ. cbn [bind]. destruct (div_ofZ_nr (P - 1) Q ltac:(clear - PP; lia) QP) as (rr & ED). rewrite ED. cbn [bind].
  replace ((P - 1) / Q) with T by (rewrite ET; symmetry; apply Z.div_mul; clear - QP; lia).
  rewrite (find_g_first (at_ (at_ s 0) 2) pb P T h r); auto; [|apply source_at, source_at; auto|intro l; apply HC|clear - P1; lia|clear - TP; lia].
  cbn [bind]. unfold draw_range. cbn [cap byt at_].
  assert (TS : T < 2 ^ 512).
  { assert (2 ^ pb <= 2 ^ 512) by (apply Z.pow_le_mono_r; clear - Hpb; lia). assert (T <= P - 1) by (rewrite ET; clear - TP QP; nia). clear - H H0 P1; lia. }
  pose proof (Z.log2_nonneg T) as LN.
  assert (EB : Z.to_nat ((count_bits (ofZ T) + 7) / 8) = Z.to_nat ((Z.log2 T + 8) / 8)) by (rewrite cb_log by exact TP; do 2 f_equal; clear; lia).
  pose proof (Z.mod_pos_bound v T TP) as XB. fold X in XB. rewrite (draw_range_top _ T v).
  - cbn [bind]. fold X. rewrite mod_exp_ofZ; [reflexivity|apply XB|clear - P2; lia].
  - exact TP.
  - apply (draw_slot s T [0%nat; 3%nat]); auto.
  - eapply Nat.le_trans; [|apply HC]. apply used8. clear - TP TS. lia.
  - exact HX.
  - rewrite EB. exact V6.
Qed.
