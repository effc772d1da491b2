(** Correctness of the conversions to and from bytes, text, machine integers. *)
From Verif Require Import Base Bits BytesSpec Bytes MpiModel MpiSpec MpiDigits MpiMulModel MpiMul MpiMul2 MpiSqr MpiCanon MpiDivModel MpiDiv MpiAlgModel MpiAlg MpiAlg2 MpiIOModel.

Ltac Zify.zify_post_hook ::= idtac.

(** *** Binary import *)
Lemma skip_zeros_ok l : be_val (skip_zeros l) = be_val l /\ (exists n, l = repeat 0 n ++ skip_zeros l) /\
  (skip_zeros l = [] \/ exists b r, skip_zeros l = b :: r /\ b <> 0).
Proof.
  induction l as [|b l (E & (n & N) & H)]; [split; auto; split; [exists O; auto|auto]|]. cbn [skip_zeros].
  destruct (Z.eqb_spec b 0) as [->|NZ].
  - split; [rewrite be_val_cons; lia|]. split; auto. exists (S n). cbn [repeat app]. f_equal. auto.
  - split; auto. split; [exists O; auto|]. right. eauto.
Qed.
Lemma skip_zeros_bytes l : bytes l -> bytes (skip_zeros l).
Proof. induction 1 as [|b l Hb Hl IH]; [constructor|]. cbn [skip_zeros]. destruct (b =? 0); auto. constructor; auto. Qed.

Lemma B_256 : B = 256 ^ 8. Proof. reflexivity. Qed.
Lemma Bn_256 n : B ^ Z.of_nat n = 256 ^ (8 * Z.of_nat n).
Proof. rewrite B_256, <- Z.pow_mul_r by lia. reflexivity. Qed.

Lemma lb_digit d b m : 0 <= m <= 7 -> 0 <= d < 256 ^ (7 - m) -> byte b ->
  Z.lor (Z.shiftl d 8 mod B) b = 256 * d + b /\ 256 * d + b < 256 ^ (8 - m) /\ 256 ^ (8 - m) <= B.
Proof.
  intros Hm Hd Hb. unfold byte in Hb.
  assert (E : 256 ^ (8 - m) = 256 * 256 ^ (7 - m)).
  { replace (8 - m) with (Z.succ (7 - m)) by lia. rewrite Z.pow_succ_r by lia. reflexivity. }
  assert (LB : 256 ^ (8 - m) <= B) by (rewrite B_256; apply Z.pow_le_mono_r; lia).
  split; [|lia]. rewrite Z.shiftl_mul_pow2 by lia. change (2 ^ 8) with 256.
  rewrite Z.mod_small by lia.
  change (d * 256) with (d * 2 ^ 8). rewrite lor_shifted_small by lia. lia.
Qed.

Lemma lb_ok p : forall d m acc, bytes p -> 0 <= m <= 7 -> (8 | Z.of_nat (length p) + (7 - m)) ->
  0 <= d < 256 ^ (7 - m) -> digits acc ->
  exists acc', fold_left lb_step p (d, m, acc) = (0, 7, acc') /\ digits acc' /\
    val acc' = (val acc * 256 ^ (7 - m) + d) * 256 ^ Z.of_nat (length p) + be_val p /\
    8 * Z.of_nat (length acc') = 8 * Z.of_nat (length acc) + Z.of_nat (length p) + (7 - m).
Proof.
  induction p as [|b p IH]; intros d m acc Hp Hm HL Hd Ha.
  - cbn [length] in *. change (Z.of_nat 0) with 0 in *. assert (m = 7) by (destruct HL as [k Hk]; lia). subst m.
    change (7 - 7) with 0 in *. rewrite Z.pow_0_r in *. exists acc. replace d with 0 by lia. cbn [fold_left]. split; auto. split; auto.
    change (be_val []) with 0. split; [ring|lia].
  - inversion Hp as [|? ? Hb Hp' EQ]; subst. cbn [length] in *. rewrite Nat2Z.inj_succ in *.
    destruct (lb_digit d b m Hm Hd Hb) as (E & U & LB). unfold byte in Hb.
    cbn [fold_left lb_step]. rewrite E. rewrite be_val_cons, Z.pow_succ_r by lia.
    assert (E8 : 256 ^ (8 - m) = 256 * 256 ^ (7 - m)).
    { replace (8 - m) with (Z.succ (7 - m)) by lia. rewrite Z.pow_succ_r by lia. reflexivity. }
    destruct (Z.eqb_spec m 0) as [->|N].
    + destruct (IH 0 7 (256 * d + b :: acc)) as (acc' & F & D & V & L); auto; try lia.
      * destruct HL as [k Hk]. exists (k - 1). lia.
      * apply digits_cons. split; auto. lia.
      * exists acc'. rewrite F. split; auto. split; auto. split; [|cbn [length] in L; lia].
        rewrite V. cbn [val]. change (7 - 7) with 0. change (7 - 0) with 7. rewrite Z.pow_0_r.
        replace B with (256 * 256 ^ 7) by reflexivity. ring.
    + destruct (IH (256 * d + b) (m - 1) acc) as (acc' & F & D & V & L); auto; try lia.
      * destruct HL as [k Hk]. exists k. lia.
      * replace (7 - (m - 1)) with (8 - m) by lia. lia.
      * exists acc'. rewrite F. split; auto. split; auto. split; [|lia].
        rewrite V. replace (7 - (m - 1)) with (8 - m) by lia. rewrite E8. ring.
Qed.

Lemma normal_of_val l : digits l -> l <> [] -> B ^ Z.of_nat (length l - 1) <= val l -> normal l.
Proof.
  intros D N V. right. destruct (val_last l N) as (lo & E & H). intro Z0. rewrite Z0 in E. specialize (H D). lia.
Qed.

Lemma load_bin_ok xs buf : bytes buf -> wf (load_bin xs buf) /\ val (dg (load_bin xs buf)) = be_val buf /\
  neg (load_bin xs buf) = (if be_val buf =? 0 then false else xs).
Proof.
  intro Hb. destruct (skip_zeros_ok buf) as (E & _ & H). pose proof (skip_zeros_bytes buf Hb) as HB.
  rewrite <- E. clear E. unfold load_bin. destruct H as [->|(b & r & E & NZ)].
  - split; [split; [constructor|left; auto]|]. auto.
  - rewrite E in *. clear E. set (p := b :: r) in *. set (m := (Z.of_nat (length p) - 1) mod 8).
    pose proof (Z.mod_pos_bound (Z.of_nat (length p) - 1) 8 ltac:(lia)) as MB. fold m in MB.
    assert (Hdm : Z.of_nat (length p) - 1 = 8 * ((Z.of_nat (length p) - 1) / 8) + m) by (apply Z.div_mod; lia).
    destruct (lb_ok p 0 m []) as (acc & F & D & V & L); auto; try lia.
    + exists ((Z.of_nat (length p) - 1) / 8 + 1). lia.
    + rewrite F. cbn [dg neg val length] in *. assert (V' : val acc = be_val p) by (rewrite V; ring). clear V. rename V' into V.
      assert (PV : 256 ^ (Z.of_nat (length p) - 1) <= be_val p).
      { unfold p in *. inversion HB as [|? ? Hb1 Hb2 EQ]; subst. unfold byte in Hb1. rewrite be_val_cons. cbn [length].
        replace (Z.of_nat (S (length r)) - 1) with (Z.of_nat (length r)) by lia.
        pose proof (be_val_bound r Hb2). pose proof (pow256_pos (length r)). nia. }
      assert (0 < 256 ^ (Z.of_nat (length p) - 1)) by (apply Z.pow_pos_nonneg; [lia|unfold p; cbn [length]; lia]).
      split; [|split; auto; destruct (Z.eqb_spec (be_val p) 0); [lia|auto]].
      split; auto. apply normal_of_val; auto.
      * cbn [dg]. intros ->. cbn [length] in L. unfold p in L. cbn [length] in L. lia.
      * cbn [dg]. rewrite V, Bn_256. apply Z.le_trans with (2 := PV). clearbody m.
        assert (1 <= length acc)%nat by (destruct acc; [cbn [length] in L; unfold p in L; cbn [length] in L|cbn [length]]; lia).
        apply Z.pow_le_mono_r; [lia|]. clearbody p. lia.
Qed.

Lemma load_bin_ofZ buf : bytes buf -> load_bin false buf = ofZ (be_val buf).
Proof.
  intro Hb. destruct (load_bin_ok false buf Hb) as (W & V & N). assert (N' : neg (load_bin false buf) = false) by (rewrite N; destruct (_ =? _); auto).
  apply is_ofZ; [apply wf_canon; auto|]. unfold mval. rewrite N'. auto.
Qed.

(** *** Binary export *)
Lemma byte_at_ok x i : wf x -> byte_at x i = Z.abs (mval x) / 256 ^ Z.of_nat i mod 256.
Proof.
  intro W. rewrite abs_mval by auto. unfold byte_at.
  replace (256 ^ Z.of_nat i) with (2 ^ (8 * Z.of_nat i)) by (rewrite Z.pow_mul_r by lia; reflexivity).
  rewrite <- Z.shiftr_div_pow2 by lia. change 255 with (Z.ones 8). rewrite Z.land_ones by lia. change (2 ^ 8) with 256.
  change 256 with (2 ^ 8). apply Z.bits_inj'. intros n Hn. destruct (Z.lt_ge_cases n 8) as [L|L].
  - rewrite !Z.mod_pow2_bits_low, !Z.shiftr_spec by lia. rewrite val_testbit by (try apply W; lia).
    assert (HD : Z.of_nat (i / 8) = Z.of_nat i / 8) by (rewrite Nat2Z.inj_div; reflexivity).
    pose proof (Z.div_mod (Z.of_nat i) 8 ltac:(lia)) as DM. pose proof (Z.mod_pos_bound (Z.of_nat i) 8 ltac:(lia)) as MB.
    assert (E1 : (n + 8 * Z.of_nat i) / 64 = Z.of_nat i / 8) by (symmetry; apply (Z.div_unique _ _ _ (n + 8 * (Z.of_nat i mod 8))); lia).
    assert (E2 : (n + 8 * Z.of_nat i) mod 64 = n + 8 * (Z.of_nat i mod 8)) by (symmetry; apply (Z.mod_unique _ _ (Z.of_nat i / 8)); lia).
    rewrite E1, E2, <- HD, Nat2Z.id. reflexivity.
  - rewrite !Z.mod_pow2_bits_high by lia. reflexivity.
Qed.

Lemma map_byte_at x n : wf x -> map (byte_at x) (rev (seq 0 n)) = be_bytes n (Z.abs (mval x)).
Proof.
  intro W. rewrite map_rev. unfold be_bytes. f_equal. apply (nth_ext _ _ 0 0).
  - rewrite map_length, seq_length, le_bytes_length. reflexivity.
  - rewrite map_length, seq_length. intros i Hi. rewrite (nth_indep _ 0 (byte_at x 0)) by (rewrite map_length, seq_length; auto).
    rewrite map_nth, seq_nth, le_bytes_nth by auto. cbn [Nat.add]. apply byte_at_ok; auto.
Qed.

Lemma count_bytes_nonneg x : wf x -> 0 <= count_bytes x /\ Z.abs (mval x) < 256 ^ count_bytes x /\
  (forall n, 0 <= n -> Z.abs (mval x) < 256 ^ n -> count_bytes x <= n).
Proof.
  intro W. assert (P : 0 <= count_bytes x).
  { unfold count_bytes. apply Z.div_pos; [|lia]. rewrite count_bits_mval by auto. destruct (mval x =? 0); [lia|]. pose proof (Z.log2_nonneg (Z.abs (mval x))). lia. }
  split; auto. replace 256 with (2 ^ 8) by reflexivity. rewrite <- Z.pow_mul_r by lia.
  destruct (count_bytes_mval x W) as [[L U]|[E E']].
  - split; auto. intros n Hn H. rewrite <- Z.pow_mul_r in H by lia.
    destruct (Z.le_gt_cases (count_bytes x) n); auto. exfalso.
    assert (2 ^ (8 * n) <= 2 ^ (8 * (count_bytes x - 1))) by (apply Z.pow_le_mono_r; lia). lia.
  - rewrite E, E'. split; [cbn; lia|]. intros. lia.
Qed.

(** What a store writes: the magnitude, in the number of bytes asked for. *)
Lemma store_bin_ok x bufsiz pad : wf x -> count_bytes x <= bufsiz ->
  store_bin x bufsiz pad = Ok (be_bytes (Z.to_nat (if pad then bufsiz else count_bytes x)) (Z.abs (mval x))).
Proof.
  intros W H. unfold store_bin. destruct (Z.ltb_spec bufsiz (count_bytes x)); [lia|].
  destruct (count_bytes_nonneg x W) as (P & U & _). f_equal. rewrite map_byte_at by auto.
  set (n := Z.to_nat (count_bytes x)). set (v := Z.abs (mval x)) in *.
  assert (Hn : Z.of_nat n = count_bytes x) by (unfold n; lia).
  apply be_val_inj.
  - apply bytes_app. split; [apply bytes_repeat0|apply be_bytes_bytes].
  - apply be_bytes_bytes.
  - rewrite app_length, repeat_length, !be_bytes_length. destruct pad; unfold n; lia.
  - rewrite be_val_repeat0, !be_val_bytes. rewrite Hn. rewrite Z.mod_small by lia. symmetry. apply Z.mod_small.
    split; [lia|]. apply Z.lt_le_trans with (1 := U). apply Z.pow_le_mono_r; [lia|]. destruct pad; lia.
Qed.

Lemma store_bin_err x bufsiz pad : bufsiz < count_bytes x -> store_bin x bufsiz pad = Err (-1).
Proof. intro H. unfold store_bin. destruct (Z.ltb_spec bufsiz (count_bytes x)); [reflexivity|lia]. Qed.

Lemma store_load_bin buf xs : bytes buf -> store_bin (load_bin xs buf) (Z.of_nat (length buf)) true = Ok buf.
Proof.
  intro Hb. destruct (load_bin_ok xs buf Hb) as (W & V & N). pose proof (be_val_bound buf Hb) as BB.
  rewrite store_bin_ok; auto.
  - rewrite Nat2Z.id, abs_mval, V by auto. f_equal. apply be_bytes_val; auto.
  - apply count_bytes_nonneg; auto; [lia|]. rewrite abs_mval, V by auto. lia.
Qed.

Lemma load_store_bin x bufsiz pad : canon x -> 0 <= mval x -> count_bytes x <= bufsiz ->
  exists b, store_bin x bufsiz pad = Ok b /\ bytes b /\ load_bin false b = x.
Proof.
  intros C P H. rewrite store_bin_ok by auto. eexists. split; [reflexivity|]. split; [apply be_bytes_bytes|].
  rewrite load_bin_ofZ by apply be_bytes_bytes. symmetry. apply is_ofZ; auto. rewrite be_val_bytes.
  destruct (count_bytes_nonneg x) as (CP & U & _); auto. rewrite Z.abs_eq in * by auto.
  rewrite Z.mod_small; auto. split; auto. apply Z.lt_le_trans with (1 := U). apply Z.pow_le_mono_r; [lia|]. destruct pad; lia.
Qed.

(** *** Machine integers *)
Lemma set_int_ofZ v : - 2 ^ 63 < v < 2 ^ 63 -> set_int v = Ok (ofZ v).
Proof.
  intro H. unfold set_int. destruct (Z.eqb_spec v (- 2 ^ 63)); [lia|]. f_equal. apply is_ofZ.
  - split; cbn [dg neg].
    + destruct (Z.eqb_spec v 0); split; cbn [dg].
      * constructor.
      * left; auto.
      * apply Forall_cons; [|constructor]. unfold B. change (2 ^ 63) with 9223372036854775808 in H. lia.
      * right. cbn. lia.
    + destruct (Z.eqb_spec v 0); [|discriminate]. intros _. subst. reflexivity.
  - unfold mval. cbn [neg dg]. destruct (Z.ltb_spec v 0), (Z.eqb_spec v 0); cbn [val]; lia.
Qed.

Lemma to_long_small d : 0 <= d < 2 ^ 63 -> to_long d = d.
Proof. intro H. apply to_long_id. change (B / 2) with (2 ^ 63). lia. Qed.

Lemma ofZ_nth0 v : Z.abs v < B -> nth 0 (dg (ofZ v)) 0 = Z.abs v.
Proof.
  intro H. pose proof (ofZ_val v) as V. destruct (canon_ofZ v) as [[D N] _].
  destruct (dg (ofZ v)) as [|d [|e l]]; cbn [val nth] in *; try lia.
  exfalso. apply digits_cons in D as [Hd D]. pose proof D as D'. apply digits_cons in D' as [He D'].
  pose proof (val_nonneg l D'). destruct N as [N|N]; [discriminate|]. cbn [last] in N.
  assert (0 < e + B * val l).
  { destruct l as [|f l]; [cbn in *; lia|]. pose proof (normal_pos f l D' (or_intror N)) as P. pose proof B_pos.
    pose proof (Bn_pos (length l)). nia. }
  nia.
Qed.

Lemma count_bits_le v n : 0 <= n -> (count_bits (ofZ v) <= n <-> Z.abs v < 2 ^ n).
Proof.
  intro Hn. rewrite count_bits_ofZ. destruct (Z.eqb_spec v 0) as [->|N].
  - assert (0 < 2 ^ n) by (apply pow2_pos; auto). cbn [Z.abs]. lia.
  - rewrite Z.log2_lt_pow2 by lia. lia.
Qed.

Lemma get_int_ok v : - 2 ^ 63 < v < 2 ^ 63 -> get_int (ofZ v) = Ok v.
Proof.
  intro H. unfold get_int. rewrite ofZ_neg. 
  assert (C : count_bits (ofZ v) <= 63) by (apply count_bits_le; lia).
  destruct (Z.ltb_spec (64 - (if v <? 0 then 0 else 1)) (count_bits (ofZ v))) as [L|L]; [destruct (v <? 0); lia|].
  rewrite ofZ_nth0 by (unfold B; change (2 ^ 63) with 9223372036854775808 in H; lia).
  rewrite to_long_small by lia. destruct (Z.ltb_spec v 0); [|f_equal; lia].
  destruct (Z.eqb_spec (Z.abs v) (- 2 ^ 63)); [change (2 ^ 63) with 9223372036854775808 in *; lia|]. f_equal. lia.
Qed.

Lemma get_int_err v : 2 ^ 63 <= v \/ v <= - 2 ^ 64 -> get_int (ofZ v) = Err (-1).
Proof.
  intro H. unfold get_int. rewrite ofZ_neg.
  destruct (Z.ltb_spec (64 - (if v <? 0 then 0 else 1)) (count_bits (ofZ v))) as [L|L]; auto. exfalso.
  change (2 ^ 63) with 9223372036854775808 in *. change (2 ^ 64) with 18446744073709551616 in *.
  destruct (Z.ltb_spec v 0).
  - apply count_bits_le in L; [|lia]. change (2 ^ (64 - 0)) with 18446744073709551616 in L. lia.
  - apply count_bits_le in L; [|lia]. change (2 ^ (64 - 1)) with 9223372036854775808 in L. lia.
Qed.

(** What comes out in the band -2^64 < v <= -2^63. *)
Lemma get_int_band v : - 2 ^ 64 < v <= - 2 ^ 63 -> get_int (ofZ v) = if v =? - 2 ^ 63 then UB else Ok (v + 2 ^ 64).
Proof.
  intro H. unfold get_int. rewrite ofZ_neg.
  change (2 ^ 63) with 9223372036854775808 in *. change (2 ^ 64) with 18446744073709551616 in *.
  assert (C : count_bits (ofZ v) <= 64) by (apply count_bits_le; [lia|]; change (2 ^ 64) with 18446744073709551616; lia).
  destruct (Z.ltb_spec v 0); [|lia]. destruct (Z.ltb_spec (64 - 0) (count_bits (ofZ v))); [lia|].
  rewrite ofZ_nth0 by (unfold B; lia). unfold to_long. rewrite Z.mod_small by (unfold B; lia). cbv zeta.
  change (B / 2) with 9223372036854775808. unfold B. destruct (Z.ltb_spec (Z.abs v) 9223372036854775808); [lia|].
  destruct (Z.eqb_spec (Z.abs v - 18446744073709551616) (- (9223372036854775808))), (Z.eqb_spec v (- (9223372036854775808))); try lia; auto.
  f_equal. lia.
Qed.
