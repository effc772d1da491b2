(** The bit-serial GF(2^128) multiplication computes the polynomial product
    modulo the GCM polynomial. *)
From Verif Require Import Base Bits BytesSpec Bytes Poly2Spec Poly2 Lists GcmModel GcmSpec.

(** * Reflection *)
Fixpoint rfl (n : nat) (v : Z) : Z :=
  match n with
  | O => 0
  | S n => (v mod 2) * 2 ^ Z.of_nat n + rfl n (v / 2)
  end.
Lemma rfl_bound n : forall v, 0 <= rfl n v < 2 ^ Z.of_nat n.
Proof.
  induction n as [|n IH]; intro v; [cbn; lia|].
  cbn [rfl]. rewrite Nat2Z.inj_succ, Z.pow_succ_r by lia. specialize (IH (v / 2)).
  pose proof (Z.mod_pos_bound v 2 ltac:(lia)). nia.
Qed.
Lemma lxor_double_bit a b : Z.lxor a b mod 2 = Z.lxor (a mod 2) (b mod 2) /\ Z.lxor a b / 2 = Z.lxor (a / 2) (b / 2).
Proof.
  split.
  - rewrite <- !Z.land_ones with (n := 1) by lia.
    apply Z.bits_inj'. intros i Hi. rewrite ?Z.land_spec, ?Z.lxor_spec, ?Z.land_spec.
    destruct (Z.testbit a i), (Z.testbit b i), (Z.testbit (Z.ones 1) i); reflexivity.
  - rewrite <- !Z.div2_div. rewrite !Z.div2_spec. apply Z.shiftr_lxor.
Qed.
Lemma lxor_hi_lo a b c d n : 0 <= n -> 0 <= c < 2 ^ n -> 0 <= d < 2 ^ n ->
  Z.lxor (a * 2 ^ n + c) (b * 2 ^ n + d) = Z.lxor a b * 2 ^ n + Z.lxor c d.
Proof.
  intros Hn Hc Hd. rewrite <- !lor_shifted_small by (auto; apply lxor_bound; auto).
  apply Z.bits_inj'. intros i Hi. rewrite Z.lxor_spec, !Z.lor_spec, !Z.mul_pow2_bits, !Z.lxor_spec by lia.
  destruct (Z.lt_ge_cases i n).
  - rewrite !(Z.testbit_neg_r _ (i - n)) by lia. reflexivity.
  - rewrite (testbit_small c n i), (testbit_small d n i) by lia. rewrite !orb_false_r. reflexivity.
Qed.
Lemma rfl_lxor n : forall a b, rfl n (Z.lxor a b) = Z.lxor (rfl n a) (rfl n b).
Proof.
  induction n as [|n IH]; intros a b; [reflexivity|].
  cbn [rfl]. destruct (lxor_double_bit a b) as [-> ->]. rewrite IH.
  rewrite lxor_hi_lo by (try lia; apply rfl_bound). reflexivity.
Qed.
Lemma rfl_split n m : forall v, rfl (n + m) v = 2 ^ Z.of_nat m * rfl n (v mod 2 ^ Z.of_nat n) + rfl m (v / 2 ^ Z.of_nat n).
Proof.
  induction n as [|n IH]; intro v.
  - cbn [rfl plus]. change (Z.of_nat 0) with 0. rewrite Z.pow_0_r, Z.div_1_r. lia.
  - cbn [rfl plus]. rewrite IH. rewrite !Nat2Z.inj_add, !Nat2Z.inj_succ.
    rewrite !Z.pow_succ_r, Z.pow_add_r by lia.
    pose proof (pow2_pos (Z.of_nat n) ltac:(lia)). pose proof (pow2_pos (Z.of_nat m) ltac:(lia)).
    assert (Hm : v mod (2 * 2 ^ Z.of_nat n) = v mod 2 + 2 * ((v / 2) mod 2 ^ Z.of_nat n)) by (apply Z.rem_mul_r; lia).
    rewrite Hm. set (t := (v / 2) mod 2 ^ Z.of_nat n).
    replace ((v mod 2 + 2 * t) mod 2) with (v mod 2) by (rewrite (Z.mul_comm 2 t), Z_mod_plus_full, Z.mod_mod by lia; reflexivity).
    replace ((v mod 2 + 2 * t) / 2) with t
      by (rewrite (Z.mul_comm 2 t), Z.div_add by lia; rewrite (Z.div_small (v mod 2)) by (apply Z.mod_pos_bound; lia); lia).
    rewrite <- Z.div_div by lia. ring.
Qed.
Lemma rfl_0 n : rfl n 0 = 0.
Proof. induction n as [|n IH]; [reflexivity|]. cbn [rfl]. change (0 mod 2) with 0. change (0 / 2) with 0. lia. Qed.
Lemma rfl_top n v : 0 <= v < 2 ^ Z.of_nat n -> rfl (S n) v = 2 * rfl n v.
Proof.
  intro H. replace (S n) with (n + 1)%nat by lia. rewrite rfl_split.
  rewrite Z.mod_small, Z.div_small by lia. rewrite rfl_0. cbn. lia.
Qed.
Lemma rfl_8 b : rfl 8 b = refl8 b.
Proof.
  unfold refl8. cbn [fold_right]. cbn [rfl].
  assert (H : forall j, 0 <= j -> (if Z.testbit b j then 1 else 0) = (b / 2 ^ j) mod 2).
  { intros j Hj. destruct (Z.testbit b j) eqn:E.
    - apply Z.testbit_true in E; lia.
    - apply Z.testbit_false in E; lia. }
  assert (H' : forall j c, 0 <= j -> (if Z.testbit b j then c else 0) = c * ((b / 2 ^ j) mod 2)).
  { intros j c Hj. rewrite <- H by lia. destruct (Z.testbit b j); lia. }
  rewrite !H' by lia. rewrite !Z.div_div by lia.
  change (7 - 7) with 0. rewrite Z.pow_0_r, Z.div_1_r.
  repeat match goal with |- context [b / ?k] => let v := eval compute in k in progress change k with v end.
  repeat match goal with |- context [2 ^ ?k] => let v := eval compute in (2 ^ k) in progress change (2 ^ k) with v end.
  ring.
Qed.
Lemma refl8_bound b : 0 <= refl8 b < 256.
Proof. rewrite <- rfl_8. apply (rfl_bound 8). Qed.
Lemma refl8_invol b : byte b -> refl8 (refl8 b) = b.
Proof.
  intro H. assert (C : forallb (fun n => Z.eqb (refl8 (refl8 (Z.of_nat n))) (Z.of_nat n)) (seq 0 256) = true) by (vm_compute; reflexivity).
  pose proof (proj1 (forallb_forall _ _) C (Z.to_nat b)) as E. cbv beta in E. unfold byte in H. rewrite Z2Nat.id in E by lia.
  apply Z.eqb_eq, E. apply in_seq. lia.
Qed.
Lemma gpoly_rfl l : bytes l -> gpoly l = rfl (8 * length l) (be_val l).
Proof.
  intro H. induction H as [|b l Hb Hl IH]; [reflexivity|].
  cbn [gpoly length]. rewrite IH, be_val_cons.
  replace (8 * S (length l))%nat with (8 * length l + 8)%nat by lia. rewrite rfl_split.
  pose proof (be_val_bound l Hl) as Hv.
  assert (E : 256 ^ Z.of_nat (length l) = 2 ^ Z.of_nat (8 * length l)).
  { rewrite Nat2Z.inj_mul. change 256 with (2 ^ Z.of_nat 8). rewrite <- Z.pow_mul_r by lia. reflexivity. }
  rewrite E in *. rewrite Z.add_comm with (n := b * _) . rewrite Z_mod_plus_full, Z.mod_small by lia.
  rewrite Z.div_add by lia. rewrite Z.div_small by lia. rewrite rfl_8. rewrite Z.add_0_l.
  change (2 ^ Z.of_nat 8) with 256. lia.
Qed.
Definition gblock_n (n : nat) (p : Z) : list Z := map (fun i => refl8 ((p / 256 ^ Z.of_nat i) mod 256)) (seq 0 n).
Lemma gblock_gpoly_n l : bytes l -> gblock_n (length l) (gpoly l) = l.
Proof.
  intro H. induction H as [|b l Hb Hl IH]; [reflexivity|].
  unfold gblock_n in *. cbn [length seq map gpoly].
  change (Z.of_nat 0) with 0. rewrite Z.pow_0_r, Z.div_1_r. rewrite Z.mul_comm, Z_mod_plus_full.
  rewrite Z.mod_small by apply refl8_bound. rewrite refl8_invol by auto. f_equal.
  rewrite <- IH at 2. rewrite <- seq_shift, map_map. apply map_ext. intro i. f_equal. f_equal.
  rewrite Nat2Z.inj_succ, Z.pow_succ_r by lia. rewrite <- Z.div_div by (try lia; apply Z.pow_pos_nonneg; lia).
  rewrite Z.div_add by lia. rewrite (Z.div_small (refl8 b)) by apply refl8_bound. rewrite Z.add_0_l. reflexivity.
Qed.
Lemma gblock_gpoly l : bytes l -> length l = 16%nat -> gblock (gpoly l) = l.
Proof. intros H E. unfold gblock. pose proof (gblock_gpoly_n l H) as G. rewrite E in G. exact G. Qed.
Lemma gpoly_bound l : 0 <= gpoly l < 2 ^ (8 * Z.of_nat (length l)).
Proof.
  induction l as [|b l IH]; [cbn; lia|]. cbn [gpoly length]. pose proof (refl8_bound b).
  rewrite Nat2Z.inj_succ. replace (8 * Z.succ (Z.of_nat (length l))) with (8 + 8 * Z.of_nat (length l)) by lia.
  rewrite Z.pow_add_r by lia. change (2 ^ 8) with 256. lia.
Qed.
Lemma gblock_length p : length (gblock p) = 16%nat. Proof. reflexivity. Qed.
Lemma gblock_bytes p : bytes (gblock p).
Proof. apply Forall_forall. intros x H. apply in_map_iff in H as (i & <- & _). apply refl8_bound. Qed.

(** * Products *)
Lemma clmul_dbl_r a b : 0 <= a -> clmul a (2 * b) = 2 * clmul a b.
Proof.
  intro Ha. destruct a as [|p|p]; try reflexivity; try lia. unfold clmul. clear.
  induction p as [p IH|p IH|]; cbn [pclmul]; rewrite ?IH, ?lxor_double; reflexivity.
Qed.
Lemma clmul_0_r a : clmul a 0 = 0.
Proof. destruct a as [|p|p]; try reflexivity. induction p as [p IH|p IH|]; cbn in *; rewrite ?IH; reflexivity. Qed.
Lemma clmul_1_r a : 0 <= a -> clmul a 1 = a.
Proof.
  intro H. destruct a as [|p|p]; try reflexivity; try lia. unfold clmul. clear.
  induction p as [p IH|p IH|]; cbn [pclmul]; rewrite ?IH; try reflexivity.
  all: destruct p; reflexivity.
Qed.
Lemma clmul_comm a b : 0 <= a -> 0 <= b -> clmul a b = clmul b a.
Proof.
  intros Ha Hb. destruct a as [|p|p]; try lia; [rewrite clmul_0_r; reflexivity|].
  clear Ha. induction p as [p IH|p IH|].
  - change (clmul (Z.pos p~1) b) with (Z.lxor b (2 * clmul (Z.pos p) b)). rewrite IH.
    rewrite <- clmul_dbl_r by auto. rewrite <- (clmul_1_r b) at 1 by auto. rewrite <- clmul_lxor_r.
    f_equal.
  - change (clmul (Z.pos p~0) b) with (2 * clmul (Z.pos p) b). rewrite IH. rewrite <- clmul_dbl_r by auto. reflexivity.
  - rewrite clmul_1_l, clmul_1_r; auto.
Qed.

(** multiplication by x modulo the GCM polynomial *)
Definition xt (p : Z) : Z := if Z.testbit p 127 then Z.lxor (2 * p) gcm_poly else 2 * p.
Fixpoint bpoly (l : list bool) : Z := match l with [] => 0 | b :: r => Z.b2z b + 2 * bpoly r end.
Fixpoint bacc (l : list bool) (v z : Z) : Z * Z :=
  match l with
  | [] => (v, z)
  | b :: r => bacc r (xt v) (if b then Z.lxor z v else z)
  end.
Lemma testbit_top n p : 0 <= n -> 0 <= p < 2 ^ (n + 1) -> Z.testbit p n = (2 ^ n <=? p).
Proof.
  intros Hn Hp. rewrite Z.pow_add_r in Hp by lia. change (2 ^ 1) with 2 in Hp.
  destruct (Z.leb_spec (2 ^ n) p).
  - apply Z.testbit_true; [lia|]. replace (p / 2 ^ n) with 1; [reflexivity|].
    apply Z.div_unique with (p - 2 ^ n); lia.
  - apply testbit_small with n; lia.
Qed.
Lemma xt_bound p : 0 <= p < 2 ^ 128 -> 0 <= xt p < 2 ^ 128.
Proof.
  intro H. unfold xt. rewrite (testbit_top 127 p) by (try lia; exact H).
  destruct (Z.leb_spec (2 ^ 127) p); [|lia].
  replace (2 * p) with (1 * 2 ^ 128 + (2 * p - 2 ^ 128)) by lia.
  change gcm_poly with (1 * 2 ^ 128 + 135). rewrite lxor_hi_lo by lia.
  rewrite Z.lxor_nilpotent. apply lxor_bound; lia.
Qed.
Lemma bpoly_nonneg l : 0 <= bpoly l.
Proof. induction l as [|b l IH]; cbn [bpoly]; [|destruct b; cbn [Z.b2z]]; lia. Qed.
Lemma bacc_ok l : forall v z, 0 <= v < 2 ^ 128 -> 0 <= z < 2 ^ 128 ->
  0 <= fst (bacc l v z) < 2 ^ 128 /\ 0 <= snd (bacc l v z) < 2 ^ 128 /\
  exists q, 0 <= q /\ Z.lxor (clmul q gcm_poly) (snd (bacc l v z)) = Z.lxor z (clmul (bpoly l) v).
Proof.
  induction l as [|b l IH]; intros v z Hv Hz; cbn [bacc bpoly].
  - split; [auto|]. split; [auto|]. exists 0. split; [lia|]. rewrite !clmul_0_l. cbn [snd]. rewrite Z.lxor_0_r. apply Z.lxor_0_l.
  - assert (Hz' : 0 <= (if b then Z.lxor z v else z) < 2 ^ 128) by (destruct b; auto; apply lxor_bound; lia).
    destruct (IH (xt v) _ (xt_bound v Hv) Hz') as (B1 & B2 & q & Hq & E). split; [auto|]. split; [auto|].
    pose proof (bpoly_nonneg l) as Hl.
    set (k := if Z.testbit v 127 then bpoly l else 0).
    assert (Hk : 0 <= k) by (unfold k; destruct (Z.testbit v 127); lia).
    exists (Z.lxor q k). split; [apply Z.lxor_nonneg; lia|].
    rewrite clmul_lxor_l by auto. rewrite Z.lxor_assoc, (Z.lxor_comm (clmul k _)), <- Z.lxor_assoc, E.
    assert (X : Z.lxor (clmul (bpoly l) (xt v)) (clmul k gcm_poly) = 2 * clmul (bpoly l) v).
    { unfold xt, k. destruct (Z.testbit v 127).
      - rewrite clmul_lxor_r, Z.lxor_assoc, Z.lxor_nilpotent, Z.lxor_0_r. apply clmul_dbl_r; auto.
      - rewrite clmul_0_l, Z.lxor_0_r. apply clmul_dbl_r; auto. }
    rewrite Z.lxor_assoc, X. destruct b; cbn [Z.b2z].
    + rewrite Z.add_comm, clmul_odd by auto. apply Z.lxor_assoc.
    + rewrite Z.add_0_l, clmul_even. reflexivity.
Qed.

(** * Words *)
Definition word (x : Z) : Prop := 0 <= x < 2 ^ 32.
Definition w4ok (v : w4) : Prop := word (w0 v) /\ word (w1 v) /\ word (w2 v) /\ word (w3 v).
Definition wval (v : w4) : Z := ((w0 v * 2 ^ 32 + w1 v) * 2 ^ 32 + w2 v) * 2 ^ 32 + w3 v.
Lemma wval_bound v : w4ok v -> 0 <= wval v < 2 ^ 128.
Proof. unfold w4ok, word, wval. intros. lia. Qed.
Lemma w4xor_ok a b : w4ok a -> w4ok b -> w4ok (w4xor a b).
Proof. intros (A0 & A1 & A2 & A3) (B0 & B1 & B2 & B3). refine (conj _ (conj _ (conj _ _))); cbn [w0 w1 w2 w3 w4xor]; apply lxor_bound; auto; lia. Qed.
Lemma w4xor_val a b : w4ok a -> w4ok b -> wval (w4xor a b) = Z.lxor (wval a) (wval b).
Proof.
  intros (A0 & A1 & A2 & A3) (B0 & B1 & B2 & B3). unfold wval, w4xor. cbn [w0 w1 w2 w3].
  rewrite !lxor_hi_lo by (auto; lia). reflexivity.
Qed.
Lemma half_join a b : word a -> word b ->
  Z.lor (Z.shiftr b 1) (Z.shiftl (Z.land a 1) 31) = b / 2 + (a mod 2) * 2 ^ 31.
Proof.
  intros Ha Hb. rewrite Z.shiftr_div_pow2, Z.shiftl_mul_pow2 by lia. change 1 with (Z.ones 1) at 2.
  rewrite Z.land_ones by lia. change (2 ^ 1) with 2. unfold word in *. rewrite lor_small_shifted; [reflexivity|lia|].
  split; [apply Z.div_pos; lia|apply Z.div_lt_upper_bound; lia].
Qed.
Lemma dbl_mask x : (Z.lxor (Z.land x 1) (2 ^ 32 - 1) + 1) mod 2 ^ 32 = if Z.odd x then 2 ^ 32 - 1 else 0.
Proof.
  change 1 with (Z.ones 1) at 1. rewrite Z.land_ones by lia. change (2 ^ 1) with 2. rewrite Zmod_odd.
  destruct (Z.odd x); reflexivity.
Qed.
Lemma w4dbl_ok v : w4ok v -> w4ok (w4dbl v) /\
  wval (w4dbl v) = Z.lxor (wval v / 2) (if Z.odd (w3 v) then 225 * 2 ^ 120 else 0).
Proof.
  intros (A0 & A1 & A2 & A3). unfold w4dbl. rewrite dbl_mask.
  rewrite !half_join by auto.
  set (m := Z.land _ (Z.shiftl 225 24)).
  assert (Hm : m = if Z.odd (w3 v) then 225 * 2 ^ 24 else 0) by (unfold m; destruct (Z.odd (w3 v)); reflexivity).
  clearbody m. rewrite Z.shiftr_div_pow2 by lia. change (2 ^ 1) with 2.
  assert (W : word m) by (unfold word; rewrite Hm; destruct (Z.odd (w3 v)); lia).
  split.
  - unfold w4ok, word in *. refine (conj _ (conj _ (conj _ _))); cbn [w0 w1 w2 w3].
    + apply lxor_bound; Z.div_mod_to_equations; lia.
    + Z.div_mod_to_equations; lia.
    + Z.div_mod_to_equations; lia.
    + Z.div_mod_to_equations; lia.
  - unfold wval. cbn [w0 w1 w2 w3]. unfold word in *.
    set (lo := ((w1 v / 2 + w0 v mod 2 * 2 ^ 31) * 2 ^ 32 + (w2 v / 2 + w1 v mod 2 * 2 ^ 31)) * 2 ^ 32 + (w3 v / 2 + w2 v mod 2 * 2 ^ 31)).
    assert (Hlo : 0 <= lo < 2 ^ 96) by (unfold lo; Z.div_mod_to_equations; lia).
    transitivity (Z.lxor (w0 v / 2) m * 2 ^ 96 + Z.lxor lo 0).
    { rewrite Z.lxor_0_r. unfold lo. ring. }
    rewrite <- lxor_hi_lo by lia. f_equal.
    + unfold lo. Z.div_mod_to_equations; lia.
    + rewrite Hm. destruct (Z.odd (w3 v)); reflexivity.
Qed.

Definition wp (v : w4) : Z := rfl 128 (wval v).
Lemma rfl_wp v : rfl (8 * 16) (wval v) = wp v. Proof. unfold wp. apply (f_equal (fun n => rfl n (wval v))). reflexivity. Qed.
Lemma wp_bound v : 0 <= wp v < 2 ^ 128. Proof. apply (rfl_bound 128). Qed.
Lemma wp_xor a b : w4ok a -> w4ok b -> wp (w4xor a b) = Z.lxor (wp a) (wp b).
Proof. intros. unfold wp. rewrite w4xor_val by auto. apply rfl_lxor. Qed.
Lemma rfl_unfold v : rfl 128 v = (v mod 2) * 2 ^ 127 + rfl 127 (v / 2). Proof. reflexivity. Qed.
Lemma wp_dbl v : w4ok v -> wp (w4dbl v) = xt (wp v).
Proof.
  intro H. destruct (w4dbl_ok v H) as [_ E]. unfold wp. rewrite E, rfl_lxor.
  pose proof (wval_bound v H) as Hv.
  rewrite (rfl_top 127 (wval v / 2)) by (change (Z.of_nat 127) with 127; Z.div_mod_to_equations; lia).
  assert (Hodd : Z.odd (w3 v) = Z.odd (wval v)).
  { unfold wval. rewrite Z.odd_add. replace (_ * 2 ^ 32) with (2 * (((w0 v * 2 ^ 32 + w1 v) * 2 ^ 32 + w2 v) * 2 ^ 31)) by ring.
    rewrite Z.odd_mul. cbn [Z.odd andb xorb]. destruct (Z.odd (w3 v)); reflexivity. }
  rewrite Hodd. clear Hodd E H.
  unfold xt. rewrite (testbit_top 127) by (try lia; apply (rfl_bound 128)).
  rewrite (rfl_unfold (wval v)). rewrite Zmod_odd. pose proof (rfl_bound 127 (wval v / 2)) as B. change (Z.of_nat 127) with 127 in B.
  destruct (Z.odd (wval v)).
  - destruct (Z.leb_spec (2 ^ 127) (1 * 2 ^ 127 + rfl 127 (wval v / 2))); [|lia].
    replace (rfl 128 (225 * 2 ^ 120)) with 135 by (vm_compute; reflexivity).
    replace (2 * (1 * 2 ^ 127 + rfl 127 (wval v / 2))) with (1 * 2 ^ 128 + 2 * rfl 127 (wval v / 2)) by lia.
    change gcm_poly with (1 * 2 ^ 128 + 135). rewrite lxor_hi_lo by lia. rewrite Z.lxor_nilpotent. lia.
  - destruct (Z.leb_spec (2 ^ 127) (0 * 2 ^ 127 + rfl 127 (wval v / 2))); [lia|].
    rewrite rfl_0, Z.lxor_0_r. lia.
Qed.

(** * The loops *)
Definition bits_of (n : nat) (b : Z) : list bool := map (fun j => Z.testbit b (7 - Z.of_nat j)) (seq 0 n).
Lemma bits_of_S n b : (n <= 7)%nat -> bits_of (S n) b = Z.testbit b 7 :: bits_of n ((2 * b) mod 256).
Proof.
  intro Hn. unfold bits_of. cbn [seq map]. f_equal. rewrite <- seq_shift, map_map. apply map_ext_in.
  intros j Hj. apply in_seq in Hj. change 256 with (2 ^ 8). rewrite Z.mod_pow2_bits_low by lia.
  replace (7 - Z.of_nat (S j)) with (6 - Z.of_nat j) by lia. replace (7 - Z.of_nat j) with (Z.succ (6 - Z.of_nat j)) by lia.
  rewrite Z.double_bits_succ. reflexivity.
Qed.
Lemma land_128 b : (Z.land b 128 =? 0) = negb (Z.testbit b 7).
Proof.
  destruct (Z.testbit b 7) eqn:E; cbn [negb].
  - apply Z.eqb_neq. intro H. apply (f_equal (fun x => Z.testbit x 7)) in H. rewrite Z.land_spec, E in H. discriminate.
  - apply Z.eqb_eq. apply Z.bits_inj'. intros i Hi. rewrite Z.land_spec, Z.bits_0.
    change 128 with (2 ^ 7). destruct (Z.eq_dec i 7) as [->|N]; [rewrite E; reflexivity|].
    rewrite Z.pow2_bits_false by lia. apply andb_false_r.
Qed.
Lemma gf_bits_ok n : forall b v z, (n <= 8)%nat -> w4ok v -> w4ok z ->
  w4ok (fst (gf_bits n b v z)) /\ w4ok (snd (gf_bits n b v z)) /\
  bacc (bits_of n b) (wp v) (wp z) = (wp (fst (gf_bits n b v z)), wp (snd (gf_bits n b v z))).
Proof.
  induction n as [|n IH]; intros b v z Hn Hv Hz; [split; [exact Hv|split; [exact Hz|reflexivity]]|].
  rewrite bits_of_S by lia. cbn [gf_bits bacc]. rewrite land_128, <- wp_dbl by auto.
  destruct (w4dbl_ok v Hv) as [Hd _].
  destruct (Z.testbit b 7); cbn [negb].
  - rewrite <- wp_xor by auto. apply IH; auto; try lia. apply w4xor_ok; auto.
  - apply IH; auto; lia.
Qed.
Lemma bacc_app a : forall b v z, bacc (a ++ b) v z = bacc b (fst (bacc a v z)) (snd (bacc a v z)).
Proof. induction a as [|x a IH]; intros; cbn [app bacc]; [reflexivity|apply IH]. Qed.
Fixpoint ybits (y : list Z) : list bool := match y with [] => [] | b :: r => bits_of 8 b ++ ybits r end.
Lemma bpoly_ybits y : bpoly (ybits y) = gpoly y.
Proof.
  induction y as [|b y IH]; [reflexivity|]. cbn [ybits gpoly]. rewrite <- IH. clear IH.
  unfold bits_of, refl8. cbn [seq map app bpoly fold_right].
  change (Z.of_nat 0) with 0. change (Z.of_nat 1) with 1. change (Z.of_nat 2) with 2. change (Z.of_nat 3) with 3.
  change (Z.of_nat 4) with 4. change (Z.of_nat 5) with 5. change (Z.of_nat 6) with 6. change (Z.of_nat 7) with 7.
  repeat match goal with |- context [Z.testbit b ?j] => destruct (Z.testbit b j) end; cbn [Z.b2z]; lia.
Qed.
Lemma gf_bytes_ok y : forall v z, w4ok v -> w4ok z ->
  w4ok (gf_bytes y v z) /\ wp (gf_bytes y v z) = snd (bacc (ybits y) (wp v) (wp z)).
Proof.
  induction y as [|b y IH]; intros v z Hv Hz; [split; [exact Hz|reflexivity]|].
  cbn [gf_bytes ybits]. rewrite bacc_app. destruct (gf_bits_ok 8 b v z ltac:(lia) Hv Hz) as (A & C & D).
  rewrite D. destruct (gf_bits 8 b v z) as [v' z']. cbn [fst snd] in *. apply IH; auto.
Qed.

(** * Bytes and words *)
Lemma write32be_bytes v : 0 <= v < 2 ^ 32 -> write32be v = be_bytes 4 v.
Proof.
  intro H. unfold write32be, be_bytes. cbn [map le_bytes rev app].
  rewrite !Z.shiftr_div_pow2 by lia. change 255 with (Z.ones 8). rewrite !Z.land_ones by lia.
  rewrite !Z.div_div by lia. change (2 ^ 0) with 1. rewrite Z.div_1_r. reflexivity.
Qed.
Lemma read32be_val l o : bytes l -> (o + 3 < length l)%nat -> read32be l o = be_val (firstn 4 (skipn o l)).
Proof.
  intros Hb Hl.
  assert (G : forall i, byte (nth i l 0)) by (intro i; apply Forall_nth_d; auto; unfold byte; lia).
  assert (F : firstn 4 (skipn o l) = [nth o l 0; nth (o + 1) l 0; nth (o + 2) l 0; nth (o + 3) l 0]).
  { apply list_eq with (d := 0).
    - rewrite firstn_length, skipn_length. cbn [length]. lia.
    - intros i Hi. rewrite firstn_length, skipn_length in Hi.
      rewrite <- (firstn_skipn o l) at 2 3 4 5. rewrite !app_nth2; rewrite firstn_length, Nat.min_l by lia; try lia.
      replace (o - o)%nat with 0%nat by lia. replace (o + 1 - o)%nat with 1%nat by lia.
      replace (o + 2 - o)%nat with 2%nat by lia. replace (o + 3 - o)%nat with 3%nat by lia.
      destruct (skipn o l) as [|a [|b [|c [|d r]]]] eqn:E; try (apply (f_equal (@length Z)) in E; rewrite skipn_length in E; cbn in E; lia).
      destruct i as [|[|[|[|i]]]]; try reflexivity. }
  rewrite F. unfold read32be. pose proof (G o) as G0. pose proof (G (o+1)%nat) as G1. pose proof (G (o+2)%nat) as G2. pose proof (G (o+3)%nat) as G3.
  unfold byte in *. rewrite !Z.shiftl_mul_pow2 by lia.
  generalize dependent (nth o l 0). generalize dependent (nth (o + 1) l 0). generalize dependent (nth (o + 2) l 0). generalize dependent (nth (o + 3) l 0).
  clear. intros d Hd c Hc b Hb a Ha.
  rewrite (lor_shifted_small a (b * 2 ^ 16) 24) by lia.
  replace (a * 2 ^ 24 + b * 2 ^ 16) with ((a * 2 ^ 8 + b) * 2 ^ 16) by lia.
  rewrite lor_shifted_small by lia.
  replace ((a * 2 ^ 8 + b) * 2 ^ 16 + c * 2 ^ 8) with (((a * 2 ^ 8 + b) * 2 ^ 8 + c) * 2 ^ 8) by lia.
  rewrite lor_shifted_small by lia. unfold be_val. cbn [fold_left]. lia.
Qed.

Definition load4 (x : list Z) : w4 := {| w0 := read32be x 0; w1 := read32be x 4; w2 := read32be x 8; w3 := read32be x 12 |}.
Lemma firstn4_bound l : bytes l -> (4 <= length l)%nat -> 0 <= be_val (firstn 4 l) < 2 ^ 32.
Proof. intros H L. pose proof (be_val_bound (firstn 4 l) (bytes_firstn _ _ H)) as B. rewrite firstn_length, Nat.min_l in B by lia. exact B. Qed.
Lemma load4_ok x : bytes x -> length x = 16%nat -> w4ok (load4 x) /\ wval (load4 x) = be_val x.
Proof.
  intros Hb Hl. unfold load4. split.
  - unfold w4ok, word; cbn [w0 w1 w2 w3]. rewrite !read32be_val by (auto; lia).
    refine (conj _ (conj _ (conj _ _))); apply firstn4_bound; try apply bytes_skipn; auto; rewrite skipn_length; lia.
  - unfold wval; cbn [w0 w1 w2 w3]. rewrite !read32be_val by (auto; lia).
    assert (X : x = firstn 4 (skipn 0 x) ++ firstn 4 (skipn 4 x) ++ firstn 4 (skipn 8 x) ++ firstn 4 (skipn 12 x)).
    { clear Hb. do 16 (destruct x as [|? x]; [discriminate Hl|]). destruct x; [reflexivity|discriminate Hl]. }
    rewrite X at 5. rewrite !be_val_app. rewrite !app_length, !firstn_length, !skipn_length, Hl.
    change (256 ^ Z.of_nat (Nat.min 4 (16 - 12))) with (2 ^ 32).
    change (256 ^ Z.of_nat (Nat.min 4 (16 - 8) + Nat.min 4 (16 - 12))) with (2 ^ 64).
    change (256 ^ Z.of_nat (Nat.min 4 (16 - 4) + (Nat.min 4 (16 - 8) + Nat.min 4 (16 - 12)))) with (2 ^ 96). lia.
Qed.
Definition store4 (z : w4) : list Z := write32be (w0 z) ++ write32be (w1 z) ++ write32be (w2 z) ++ write32be (w3 z).
Lemma store4_ok z : w4ok z -> bytes (store4 z) /\ length (store4 z) = 16%nat /\ be_val (store4 z) = wval z.
Proof.
  intros (A0 & A1 & A2 & A3). unfold store4. unfold word in *. rewrite !write32be_bytes by auto.
  split; [|split].
  - rewrite !bytes_app. repeat split; apply be_bytes_bytes.
  - reflexivity.
  - rewrite !be_val_app, !app_length, !be_bytes_length, !be_val_bytes. cbn [plus].
    change (256 ^ Z.of_nat 4) with (2 ^ 32). rewrite !Z.mod_small by lia. unfold wval.
    change (256 ^ Z.of_nat 12) with (2 ^ 96). change (256 ^ Z.of_nat 8) with (2 ^ 64). lia.
Qed.
Lemma gf_mul_rem x y : bytes x -> length x = 16%nat ->
  bytes (gf_mul x y) /\ length (gf_mul x y) = 16%nat /\
  is_rem 128 gcm_poly (clmul (gpoly y) (gpoly x)) (gpoly (gf_mul x y)).
Proof.
  intros Hb Hl. destruct (load4_ok x Hb Hl) as [V VE].
  set (zz := {| w0 := 0; w1 := 0; w2 := 0; w3 := 0 |}).
  assert (Z0 : w4ok zz) by (repeat split; cbn; lia).
  destruct (gf_bytes_ok y _ _ V Z0) as [G GE].
  change (gf_mul x y) with (store4 (gf_bytes y (load4 x) zz)).
  destruct (store4_ok _ G) as (S1 & S2 & S3). split; [auto|]. split; [auto|].
  rewrite (gpoly_rfl (store4 _)), S2, S3 by auto. rewrite rfl_wp.
  rewrite GE. rewrite (gpoly_rfl x), Hl, <- VE by auto. rewrite rfl_wp.
  change (wp zz) with 0.
  destruct (bacc_ok (ybits y) (wp (load4 x)) 0 (wp_bound _) ltac:(lia)) as (_ & B & q & Hq & E).
  split; [auto|]. exists q. split; [auto|]. rewrite E, bpoly_ybits. apply Z.lxor_0_l.
Qed.

(** * The specification's remainder *)
Lemma clmul_pow2 g : forall k, 0 <= k -> clmul (2 ^ k) g = g * 2 ^ k.
Proof.
  apply (natlike_ind (fun k => clmul (2 ^ k) g = g * 2 ^ k)).
  - rewrite Z.pow_0_r, clmul_1_l. lia.
  - intros k Hk IH. rewrite Z.pow_succ_r, clmul_even, IH by auto. lia.
Qed.
Lemma gcm_rem_ok n : forall p, 0 <= p < 2 ^ (128 + Z.of_nat n) -> is_rem 128 gcm_poly p (gcm_rem n p).
Proof.
  induction n as [|n IH]; intros p Hp.
  - cbn [gcm_rem]. apply is_rem_same. rewrite Z.add_0_r in Hp. auto.
  - cbn [gcm_rem]. rewrite Nat2Z.inj_succ in Hp. replace (128 + Z.succ (Z.of_nat n)) with (128 + Z.of_nat n + 1) in Hp by lia.
    rewrite testbit_top by lia. set (k := Z.of_nat n) in *. assert (Hk : 0 <= k) by (unfold k; lia).
    destruct (Z.leb_spec (2 ^ (128 + k)) p) as [C|C]; [|apply IH; lia].
    assert (B : 0 <= Z.lxor p (gcm_poly * 2 ^ k) < 2 ^ (128 + k)).
    { replace (128 + k + 1) with (Z.succ (128 + k)) in Hp by lia. rewrite Z.pow_succ_r in Hp by lia.
      pose proof (pow2_pos k Hk) as P.
      assert (Q : 135 * 2 ^ k < 2 ^ (128 + k)) by (rewrite Z.pow_add_r by lia; nia).
      assert (E1 : p = 1 * 2 ^ (128 + k) + (p - 2 ^ (128 + k))) by lia.
      assert (E2 : gcm_poly * 2 ^ k = 1 * 2 ^ (128 + k) + 135 * 2 ^ k) by (unfold gcm_poly; rewrite Z.pow_add_r by lia; ring).
      rewrite E1, E2. rewrite lxor_hi_lo by lia. rewrite Z.lxor_nilpotent. apply lxor_bound; lia. }
    destruct (IH _ B) as (R & q & Hq & E). split; [auto|].
    exists (Z.lxor q (2 ^ k)). pose proof (pow2_pos k Hk). split; [apply Z.lxor_nonneg; lia|].
    rewrite clmul_lxor_l by lia.
    assert (M : clmul (2 ^ k) gcm_poly = gcm_poly * 2 ^ k).
    { apply clmul_pow2; auto. }
    rewrite M. rewrite Z.lxor_assoc, (Z.lxor_comm (gcm_poly * 2 ^ k)), <- Z.lxor_assoc, E.
    rewrite Z.lxor_assoc, Z.lxor_nilpotent. apply Z.lxor_0_r.
Qed.
Lemma clmul_bound n : forall a b m, 0 <= a < 2 ^ Z.of_nat n -> 0 <= b < 2 ^ m -> 0 <= m -> 0 <= clmul a b < 2 ^ (m + Z.of_nat n).
Proof.
  induction n as [|n IH]; intros a b m Ha Hb Hm.
  - cbn in Ha. replace a with 0 by lia. rewrite clmul_0_l. pose proof (pow2_pos (m + Z.of_nat 0) ltac:(lia)). lia.
  - rewrite Nat2Z.inj_succ in *. replace (m + Z.succ (Z.of_nat n)) with (Z.succ (m + Z.of_nat n)) by lia.
    rewrite Z.pow_succ_r in Ha by lia.
    destruct (parity_split a) as (a' & o & E).
    assert (Ha' : 0 <= a' < 2 ^ Z.of_nat n) by (destruct o; lia).
    pose proof (IH a' b m Ha' Hb Hm) as I. destruct o; subst a.
    + rewrite clmul_odd by lia. apply lxor_bound; try lia.
      * rewrite Z.pow_succ_r by lia. assert (2 ^ m <= 2 ^ (m + Z.of_nat n)) by (apply Z.pow_le_mono_r; lia). lia.
      * rewrite Z.pow_succ_r by lia. lia.
    + rewrite clmul_even. rewrite Z.pow_succ_r by lia. lia.
Qed.
Lemma gpoly128 x : length x = 16%nat -> 0 <= gpoly x < 2 ^ 128.
Proof. intro H. pose proof (gpoly_bound x) as B. rewrite H in B. exact B. Qed.
Lemma bmul_rem x y : length x = 16%nat -> length y = 16%nat ->
  is_rem 128 gcm_poly (clmul (gpoly x) (gpoly y)) (gcm_rem 128 (clmul (gpoly x) (gpoly y))).
Proof.
  intros Hx Hy. apply gcm_rem_ok. pose proof (gpoly128 x Hx). pose proof (gpoly128 y Hy).
  apply (clmul_bound 128); auto; lia.
Qed.
Theorem gf_mul_ok x y : bytes x -> length x = 16%nat -> length y = 16%nat -> gf_mul x y = bmul x y.
Proof.
  intros Hb Hx Hy. destruct (gf_mul_rem x y Hb Hx) as (A & L & R).
  pose proof (gpoly128 x Hx). pose proof (gpoly128 y Hy).
  rewrite clmul_comm in R by lia. unfold bmul.
  rewrite <- (is_rem_unique 128 gcm_poly _ _ _ ltac:(lia) ltac:(unfold gcm_poly; lia) eq_refl R (bmul_rem x y Hx Hy)).
  symmetry. apply gblock_gpoly; auto.
Qed.
