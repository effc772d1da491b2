(** Correctness of random generation, primality testing, list initialisation. *)
From Coq Require Import Znumtheory.
From Verif Require Import Base Bits BytesSpec Bytes Fermat MpiModel MpiSpec MpiDigits MpiMulModel MpiMul MpiMul2 MpiSqr MpiCanon MpiDivModel MpiDiv MpiAlgModel MpiAlg MpiAlg2 MpiIOModel MpiIO MpiTextSpec.

Ltac Zify.zify_post_hook ::= idtac.

(** *** Random numbers *)
Lemma upd_snoc {A} (l : list A) x y : upd (l ++ [x]) (length l) y = l ++ [y].
Proof. induction l as [|a l IH]; [reflexivity|]. cbn [app length upd]. rewrite IH. reflexivity. Qed.

Lemma top_digit d k : 0 <= d < B -> 0 < k <= 64 ->
  2 ^ (k - 1) <= Z.lor (if k <? 64 then Z.land d (Z.shiftl 1 k - 1) else d) (Z.shiftl 1 (k - 1)) < 2 ^ k.
Proof.
  intros Hd Hk. rewrite !Z.shiftl_mul_pow2, !Z.mul_1_l by lia.
  set (e := if k <? 64 then _ else _). assert (0 <= e < 2 ^ k).
  { subst e. destruct (Z.ltb_spec k 64).
    - change (2 ^ k - 1) with (Z.pred (2 ^ k)). rewrite <- Z.ones_equiv, Z.land_ones by lia. apply Z.mod_pos_bound, Z.pow_pos_nonneg; lia.
    - replace k with 64 by lia. exact Hd. }
  clearbody e. assert (2 ^ k = 2 * 2 ^ (k - 1)) as E2 by (rewrite <- Z.pow_succ_r by lia; f_equal; lia).
  pose proof (pow2_pos (k - 1) ltac:(lia)).
  split; [|apply lor_bound; lia].
  rewrite Z.lor_comm. pose proof (Z.lor_nonneg (2 ^ (k - 1)) e) as LN.
  apply Z.ldiff_le; [apply LN; lia|].
  apply Z.bits_inj'. intros i Hi. rewrite Z.ldiff_spec, Z.lor_spec, Z.bits_0. destruct (Z.testbit _ _); reflexivity.
Qed.

Lemma ndigs_ok bits : 0 < bits -> (0 < ndigs bits)%nat /\ 64 * (Z.of_nat (ndigs bits) - 1) < bits <= 64 * Z.of_nat (ndigs bits).
Proof.
  intro H. unfold ndigs. assert (0 <= (bits - 1) / 64) by (apply Z.div_pos; lia).
  pose proof (Z.div_mod (bits - 1) 64 ltac:(lia)). pose proof (Z.mod_pos_bound (bits - 1) 64 ltac:(lia)). lia.
Qed.

Lemma B_pow n : 0 <= n -> B ^ n = 2 ^ (64 * n).
Proof. intro H. change B with (2 ^ 64). rewrite <- Z.pow_mul_r by lia. reflexivity. Qed.

Lemma rand_ok rs alloc bits bin : 0 < bits -> bytes bin -> Z.of_nat (length bin) = (bits + 7) / 8 ->
  (ndigs bits <= alloc)%nat \/ B ^ (Z.of_nat (ndigs bits) - 1) <= be_val bin ->
  exists r, rand rs alloc bits bin = Ok r /\ wf r /\ neg r = (if be_val bin =? 0 then false else rs) /\
    val (dg r) < 2 ^ bits /\ (B ^ (Z.of_nat (ndigs bits) - 1) <= be_val bin -> 2 ^ (bits - 1) <= val (dg r)).
Proof.
  intros Hb HB L HA. destruct (ndigs_ok bits Hb) as [D0 D1]. unfold rand.
  destruct (Z.eqb_spec bits 0); [lia|]. fold (ndigs bits). cbv zeta. set (digs := ndigs bits) in *. clearbody digs.
  destruct (load_bin_ok rs bin HB) as (W & V & N). set (r := load_bin rs bin) in *. clearbody r.
  assert (US : (used r <= digs)%nat).
  { apply wf_len_le; auto. rewrite V. pose proof (be_val_bound bin HB) as BB.
    eapply Z.lt_le_trans; [apply BB|]. rewrite B_pow by lia. change 256 with (2 ^ 8). rewrite <- Z.pow_mul_r by lia.
    apply Z.pow_le_mono_r; [lia|]. rewrite L. pose proof (Z.mul_div_le (bits + 7) 8 ltac:(lia)).
    assert ((bits + 7) / 8 < 8 * Z.of_nat digs + 1); [|lia]. apply Z.div_lt_upper_bound; lia. }
  destruct (Nat.leb_spec digs (used r)) as [G|G].
  - assert (U : used r = digs) by lia. eexists. split; [reflexivity|].
    unfold used in U. destruct W as [D NM]. set (msb := bits - 64 * (Z.of_nat digs - 1)).
    assert (Hm : 0 < msb <= 64) by (subst msb; lia).
    destruct (exists_last (l := dg r)) as (l & x & E); [intro E; rewrite E in U; cbn in U; lia|].
    rewrite E in *. rewrite app_length in U. cbn [length] in U. replace (digs - 1)%nat with (length l) by lia.
    rewrite app_nth2, Nat.sub_diag by lia. cbn [nth]. rewrite upd_snoc. apply digits_app in D as [Dl Dx].
    apply digits_cons in Dx as [Dx _]. pose proof (top_digit x msb Dx Hm) as T.
    set (d := Z.lor _ _) in *. clearbody d. cbn [dg neg].
    assert (P1 : 0 < 2 ^ (msb - 1)) by (apply pow2_pos; lia).
    assert (P2 : 2 ^ msb <= B) by (change B with (2 ^ 64); apply Z.pow_le_mono_r; lia).
    split; [|split; [exact N|]].
    + split; cbn [dg].
      * apply digits_app. split; auto. apply digits_cons. split; [lia|]. constructor.
      * right. rewrite last_last. lia.
    + rewrite val_app. cbn [val]. pose proof (val_nonneg l Dl) as P. pose proof (val_lt l Dl) as Q.
      replace (Z.of_nat (length l)) with (Z.of_nat digs - 1) in * by lia.
      rewrite B_pow in * by lia. set (X := 2 ^ (64 * (Z.of_nat digs - 1))) in *.
      assert (2 ^ bits = X * 2 ^ msb) by (subst X msb; rewrite <- Z.pow_add_r by lia; f_equal; lia).
      assert (2 ^ (bits - 1) = X * 2 ^ (msb - 1)) by (subst X msb; rewrite <- Z.pow_add_r by lia; f_equal; lia).
      assert (0 < X) by (subst X; apply pow2_pos; lia). clearbody X.
      replace (d + B * 0) with d by lia. clear - P Q T H H0 H1. nia.
  - pose proof (val_lt (dg r) (proj1 W)) as VL. fold (used r) in VL. rewrite V in VL.
    assert (S1 : be_val bin < B ^ (Z.of_nat digs - 1)).
    { eapply Z.lt_le_trans; [apply VL|]. apply Z.pow_le_mono_r; [apply B_pos|lia]. }
    destruct HA as [HA|HA]; [|lia].
    assert (EA : (digs <=? (if (alloc <? used r)%nat then (used r + (16 - used r mod 8))%nat else alloc))%nat = true).
    { destruct (Nat.ltb_spec alloc (used r)); apply Nat.leb_le; lia. }
    rewrite EA. exists r. split; auto. split; auto. split; auto. rewrite V. split; [|lia].
    eapply Z.lt_trans; [apply S1|]. rewrite B_pow by lia. apply Z.pow_lt_mono_r; lia.
Qed.

Lemma ndigs_used x : 0 < x -> ndigs (count_bits (ofZ x)) = used (ofZ x).
Proof.
  intro H. destruct (used_bounds x H) as [U0 U]. rewrite count_bits_ofZ. destruct (Z.eqb_spec x 0); [lia|].
  rewrite Z.abs_eq by lia. pose proof (Z.log2_spec x H) as L. pose proof (Z.log2_nonneg x).
  destruct (ndigs_ok (Z.log2 x + 1)) as [D0 D1]; [lia|]. set (d := ndigs _) in *. clearbody d.
  rewrite !B_pow in U by lia.
  assert (64 * Z.of_nat (used (ofZ x) - 1) < Z.succ (Z.log2 x)) by (apply (Z.pow_lt_mono_r_iff 2); lia).
  assert (Z.log2 x < 64 * Z.of_nat (used (ofZ x))) by (apply (Z.pow_lt_mono_r_iff 2); lia). lia.
Qed.

Lemma rand_range_ok alloc m bin : 0 < m -> draw_for m bin ->
  (used (ofZ m) <= alloc)%nat \/ B ^ (Z.of_nat (used (ofZ m)) - 1) <= be_val bin ->
  exists r, rand_range false alloc (ofZ m) bin = Ok (ofZ r) /\ 0 <= r < m.
Proof.
  intros Hm [HB L] HA. unfold rand_range.
  assert (C : count_bits (ofZ m) = Z.log2 m + 1).
  { rewrite count_bits_ofZ. destruct (Z.eqb_spec m 0); [lia|]. rewrite Z.abs_eq by lia. reflexivity. }
  pose proof (Z.log2_nonneg m).
  destruct (rand_ok false alloc (count_bits (ofZ m)) bin) as (r & E & W & N & V & _); auto.
  { lia. } { rewrite C, L. f_equal. lia. } { rewrite ndigs_used by auto. auto. }
  rewrite E. cbn [bind]. assert (Cr : canon r) by (apply wf_canon; auto; rewrite N; destruct (_ =? _); auto).
  assert (N' : neg r = false) by (rewrite N; destruct (_ =? _); auto).
  pose proof (val_nonneg _ (proj1 W)) as P. assert (M : mval r = val (dg r)) by (unfold mval; rewrite N'; auto).
  rewrite (canon_is_ofZ r Cr), M. rewrite cmp_abs_ofZ.
  destruct (Z.leb_spec 0 (Z.sgn (Z.abs (val (dg r)) - Z.abs m))).
  - rewrite mod_ofZ by auto. eexists. split; [reflexivity|]. apply Z.mod_pos_bound; auto.
  - eexists. split; [reflexivity|]. lia.
Qed.

(** Whenever a draw yields a number, the number is in range. *)
Lemma rand_range_range alloc m bin a : 0 < m -> draw_for m bin ->
  rand_range false alloc (ofZ m) bin = Ok a -> exists r, a = ofZ r /\ 0 <= r < m.
Proof.
  intros Hm HD E.
  destruct (le_lt_dec (used (ofZ m)) alloc) as [LE|LT]; [destruct (rand_range_ok alloc m bin Hm HD) as (r & E' & R); auto; exists r; split; auto; congruence|].
  destruct (Z_lt_le_dec (be_val bin) (B ^ (Z.of_nat (used (ofZ m)) - 1))) as [S|S].
  2:{ destruct (rand_range_ok alloc m bin Hm HD) as (r & E' & R); auto; exists r; split; auto; congruence. }
  unfold rand_range, rand in E. destruct HD as [HB L]. pose proof (Z.log2_nonneg m).
  assert (C : count_bits (ofZ m) = Z.log2 m + 1).
  { rewrite count_bits_ofZ. destruct (Z.eqb_spec m 0); [lia|]. rewrite Z.abs_eq by lia. reflexivity. }
  destruct (Z.eqb_spec (count_bits (ofZ m)) 0); [lia|]. fold (ndigs (count_bits (ofZ m))) in E. cbv zeta in E.
  rewrite ndigs_used in E by auto. rewrite load_bin_ofZ in E by auto.
  pose proof (be_val_bound bin HB) as BB. destruct (used_bounds m Hm) as [U0 U].
  assert (UL : (used (ofZ (be_val bin)) <= used (ofZ m) - 1)%nat).
  { apply wf_len_le; auto. rewrite ofZ_val. replace (Z.of_nat (used (ofZ m) - 1)) with (Z.of_nat (used (ofZ m)) - 1) by lia. lia. }
  destruct (Nat.leb_spec (used (ofZ m)) (used (ofZ (be_val bin)))); [lia|].
  destruct (_ <=? _)%nat; [|discriminate]. cbn [bind] in E. rewrite cmp_abs_ofZ in E.
  assert (be_val bin < m) by (replace (Z.of_nat (used (ofZ m) - 1)) with (Z.of_nat (used (ofZ m)) - 1) in U by lia; lia).
  destruct (Z.leb_spec 0 (Z.sgn (Z.abs (be_val bin) - Z.abs m))); [lia|]. injection E as <-. exists (be_val bin). split; auto. lia.
Qed.

(** *** Primality *)
Lemma div_rb_ofZ p q : 0 <= p -> 0 < q -> div_rb (ofZ p) (ofZ q) = Ok (ofZ (p / q), ofZ (p mod q)).
Proof.
  intros Hp Hq. rewrite <- div_ofZ by auto. unfold div_rb, div, div_gen. rewrite !ofZ_neg.
  destruct (Z.ltb_spec p 0); [lia|]. destruct (Z.ltb_spec q 0); [lia|]. cbn [xorb].
  destruct (div_abs (ofZ p) (ofZ q)) as [[? ?]| | |]; reflexivity.
Qed.

Lemma obviously_ok p l : 0 <= p -> Forall (fun q => 0 < q < 2 ^ 63) l ->
  exists r, obviously (ofZ p) l = Ok r /\
    (r = 2 /\ In p l \/ r = 1 /\ (exists q, In q l /\ (q | p) /\ q <> p) \/ r = 0 /\ forall q, In q l -> ~ (q | p)).
Proof.
  intros Hp. induction 1 as [|q l Hq _ (r & E & H)]; [exists 0; split; auto; right; right; split; auto; intros q []|].
  cbn [obviously]. rewrite set_int_ofZ by lia. cbn [bind]. rewrite cmp_ofZ.
  destruct (Z.eqb_spec (Z.sgn (q - p)) 0) as [S|S]; [exists 2; split; auto; left; split; auto; left; lia|].
  rewrite div_rb_ofZ by lia. cbn [bind]. rewrite is_zero_ofZ. destruct (Z.eqb_spec (p mod q) 0) as [M|M].
  - exists 1. split; auto. right; left. split; auto. exists q. split; [left; auto|]. split; [apply Zmod_divide; lia|lia].
  - exists r. split; auto. destruct H as [[-> I]|[[-> (q' & I & D & N)]|[-> F]]].
    + left; split; auto. right; auto.
    + right; left. split; auto. exists q'. split; [right; auto|auto].
    + right; right. split; auto. intros q' [<-|I]; auto. intro D. apply M. apply Zdivide_mod; auto.
Qed.

Lemma small_primes_range : Forall (fun q => 1 < q < 2 ^ 63) small_primes.
Proof. apply Forall_forall. assert (F : forallb (fun q => (1 <? q) && (q <? 2 ^ 63))%bool small_primes = true) by (vm_compute; reflexivity).
  rewrite forallb_forall in F. intros q H. specialize (F q H). lia. Qed.

Lemma small_primes_all q : prime q -> 3 <= q <= 1009 -> In q small_primes.
Proof.
  intros P R.
  assert (F : forallb (fun n => existsb (Z.eqb n) small_primes || existsb (fun d => (d <? n) && (n mod d =? 0))%bool [2;3;5;7;11;13;17;19;23;29;31])%bool
     (map (fun k => Z.of_nat k + 3) (seq 0 1007)) = true) by (vm_compute; reflexivity).
  rewrite forallb_forall in F. specialize (F q). rewrite Bool.orb_true_iff, !existsb_exists in F. destruct F as [(x & I & E)|(d & I & E)].
  - apply in_map_iff. exists (Z.to_nat (q - 3)). split; [lia|]. apply in_seq. lia.
  - apply Z.eqb_eq in E. subst x. auto.
  - exfalso. apply andb_prop in E as [E1 E2]. apply Z.ltb_lt in E1. apply Z.eqb_eq in E2.
    assert (1 < d) by (cbn in I; repeat (destruct I as [<-|I]; [lia|]); destruct I).
    apply Zmod_divide in E2; [|lia]. apply (prime_divisors q P) in E2. lia.
Qed.

Lemma strip2_ok f : forall m b, 0 < m < 2 ^ Z.of_nat f ->
  exists k o, strip2 f (ofZ m) b = Ok ((b + k)%nat, ofZ o) /\ m = 2 ^ Z.of_nat k * o /\ Z.odd o = true /\ 0 < o.
Proof.
  induction f as [|f IH]; intros m b H; cbn [strip2]; rewrite is_odd_ofZ.
  - change (Z.of_nat 0) with 0 in H. rewrite Z.pow_0_r in H. lia.
  - destruct (Z.odd m) eqn:OD; [exists 0%nat, m; rewrite Nat.add_0_r; split; auto; change (Z.of_nat 0) with 0; rewrite Z.pow_0_r; split; [lia|split; [auto|lia]]|].
    assert (E : m = 2 * (m / 2)) by (pose proof (Z.div_mod m 2 ltac:(lia)) as D; rewrite Zmod_odd, OD in D; lia).
    rewrite Nat2Z.inj_succ, Z.pow_succ_r in H by lia.
    rewrite shr_ofZ by lia. change (2 ^ 1) with 2. destruct (IH (m / 2) (S b)) as (k & o & Ek & Em & Oo & Po); [lia|].
    exists (S k), o. rewrite Ek. split; [do 2 f_equal; lia|]. split; auto.
    rewrite E, Em, Nat2Z.inj_succ, Z.pow_succ_r by lia. ring.
Qed.

Lemma calc_ok p : 1 < p -> exists k o, calc_b_and_m (ofZ p) = Ok (k, ofZ o) /\ p - 1 = 2 ^ Z.of_nat k * o /\ Z.odd o = true /\ 0 < o.
Proof.
  intro Hp. unfold calc_b_and_m. rewrite <- ofZ_1, sub_ofZ. cbn [bind]. apply strip2_ok.
  destruct (count_bits_spec p) as (C0 & C1 & _); [lia|]. rewrite Z2Nat.id; lia.
Qed.

Lemma is_one_ofZ z : 0 <= z -> is_one (ofZ z) = (z =? 1).
Proof.
  intro H. destruct (Z.eqb_spec z 1) as [->|N]; [reflexivity|]. unfold is_one.
  pose proof (ofZ_val z) as V. destruct (dg (ofZ z)) as [|d [|e l]]; auto. cbn [val] in V. apply Z.eqb_neq. lia.
Qed.

Lemma mr_step n z p : 0 <= z < p -> mr_loop (S n) (ofZ z) (ofZ p) =
  if z =? 1 then Ok false else if z =? p - 1 then Ok true else mr_loop n (ofZ (z * z mod p)) (ofZ p).
Proof.
  intro H. cbn [mr_loop]. rewrite is_one_ofZ by lia. destruct (z =? 1); auto.
  rewrite <- ofZ_1, add_ofZ. cbn [bind]. rewrite cmp_ofZ. rewrite mul_ofZ. cbn [bind]. rewrite mod_ofZ by lia. cbn [bind].
  destruct (Z.eqb_spec (Z.sgn (z + 1 - p)) 0), (Z.eqb_spec z (p - 1)); auto; lia.
Qed.
Lemma mr_step0 z p : mr_loop 0 (ofZ z) (ofZ p) = Ok (z =? p - 1).
Proof.
  cbn [mr_loop]. rewrite <- ofZ_1, add_ofZ. cbn [bind]. rewrite cmp_ofZ. f_equal.
  destruct (Z.eqb_spec (Z.sgn (z + 1 - p)) 0), (Z.eqb_spec z (p - 1)); auto; lia.
Qed.

Lemma pow_mod a n p : 0 <= n -> 0 < p -> (a mod p) ^ n mod p = a ^ n mod p.
Proof.
  intros Hn Hp. revert n Hn. apply natlike_ind; [reflexivity|]. intros n Hn IH. rewrite !Z.pow_succ_r by auto.
  rewrite Z.mul_mod, IH, Z.mod_mod, <- Z.mul_mod by lia. reflexivity.
Qed.

Lemma sq_pow z n p : 0 < p -> (z * z mod p) ^ (2 ^ Z.of_nat n) mod p = z ^ (2 ^ Z.of_nat (S n)) mod p.
Proof.
  intro Hp. assert (0 <= 2 ^ Z.of_nat n) by (apply Z.pow_nonneg; lia). rewrite pow_mod by auto.
  rewrite Nat2Z.inj_succ, Z.pow_succ_r, Z.pow_mul_r by lia. rewrite Z.pow_2_r. reflexivity.
Qed.

Lemma mr_loop_sound n : forall z p, 0 <= z < p -> exists r, mr_loop n (ofZ z) (ofZ p) = Ok r /\
  (r = true -> exists j, (j <= n)%nat /\ z ^ (2 ^ Z.of_nat j) mod p = p - 1).
Proof.
  assert (P0 : forall z p, 0 <= z < p -> z = p - 1 -> z ^ (2 ^ Z.of_nat 0) mod p = p - 1).
  { intros z p H ->. change (Z.of_nat 0) with 0. rewrite Z.pow_0_r, Z.pow_1_r. apply Z.mod_small; lia. }
  induction n as [|n IH]; intros z p H.
  - rewrite mr_step0. eexists; split; [reflexivity|]. intro E. exists O. split; auto. apply P0; auto. lia.
  - rewrite mr_step by auto. destruct (Z.eqb_spec z 1); [exists false; split; auto; discriminate|].
    destruct (Z.eqb_spec z (p - 1)); [exists true; split; auto; intros _; exists O; split; [lia|]; apply P0; auto|].
    destruct (IH (z * z mod p) p) as (r & E & SS); [apply Z.mod_pos_bound; lia|]. exists r. split; auto.
    intro T. destruct (SS T) as (j & J & Ej). exists (S j). split; [lia|]. rewrite <- sq_pow by lia. auto.
Qed.

Lemma mr_loop_complete n : forall z p, prime p -> 0 <= z < p -> z <> 1 -> z ^ (2 ^ Z.of_nat n) mod p = 1 ->
  mr_loop n (ofZ z) (ofZ p) = Ok true.
Proof.
  induction n as [|n IH]; intros z p P H N E; pose proof (prime_ge_2 p P).
  - exfalso. change (Z.of_nat 0) with 0 in E. rewrite Z.pow_0_r, Z.pow_1_r, Z.mod_small in E by lia. auto.
  - rewrite mr_step by auto. destruct (Z.eqb_spec z 1); [contradiction|]. destruct (Z.eqb_spec z (p - 1)); auto.
    apply IH; auto; [apply Z.mod_pos_bound; lia| |rewrite sq_pow by lia; auto].
    intro M. assert (D : (p | (z - 1) * (z + 1))).
    { exists (z * z / p). pose proof (Z.div_mod (z * z) p ltac:(lia)). lia. }
    apply prime_mult in D; auto. destruct D as [[k D]|[k D]].
    + assert (k = 0) by nia. subst k. lia.
    + assert (k = 1) by nia. subst k. lia.
Qed.

Lemma passes_ok p bin a : 1 < p -> draw_for p bin -> rand_range false 8 (ofZ p) bin = Ok a ->
  exists r, passes_mr (ofZ p) bin = Ok r /\ (r = true -> miller_rabin p (mval a)) /\
    (prime p -> mval a <> 0 -> r = true).
Proof.
  intros Hp HD E. destruct (rand_range_range 8 p bin a ltac:(lia) HD E) as (x & -> & Hx). rewrite mval_ofZ.
  destruct (calc_ok p Hp) as (k & o & Ec & Ep & Oo & Po). unfold passes_mr. rewrite Ec. cbn [bind]. rewrite E. cbn [bind].
  rewrite mod_exp_ofZ by lia. cbn [bind]. pose proof (Z.mod_pos_bound (x ^ o) p ltac:(lia)) as MB.
  rewrite is_one_ofZ by lia. destruct (Z.eqb_spec (x ^ o mod p) 1) as [M1|M1].
  { exists true. split; auto. split; auto. intros _. exists (Z.of_nat k), o. repeat split; auto. lia. }
  destruct (mr_loop_sound k (x ^ o mod p) p MB) as (r & Er & S). exists r. split; auto. split.
  - intro T. destruct (S T) as (j & J & Ej). exists (Z.of_nat k), o. split; [lia|]. split; auto. split; auto. right.
    exists (Z.of_nat j). split; [lia|]. rewrite pow_mod in Ej by (try apply Z.pow_nonneg; lia).
    rewrite <- Z.pow_mul_r in Ej by (try apply Z.pow_nonneg; lia). rewrite Z.mul_comm. auto.
  - intros P NZ. assert (Q : mr_loop k (ofZ (x ^ o mod p)) (ofZ p) = Ok true); [|congruence].
    apply mr_loop_complete; auto. rewrite pow_mod by (try apply Z.pow_nonneg; lia).
    rewrite <- Z.pow_mul_r by (try apply Z.pow_nonneg; lia). rewrite Z.mul_comm, <- Ep.
    apply fermat1; auto. intro D. apply Z.divide_pos_le in D; lia.
Qed.

Lemma mr_rounds_sound p ds : 1 < p -> (forall d, In d ds -> draw_for p d) -> mr_rounds (ofZ p) ds = Ok true ->
  forall d, In d ds -> exists a, rand_range false 8 (ofZ p) d = Ok a /\ miller_rabin p (mval a).
Proof.
  intros Hp. induction ds as [|d ds IH]; intros HD H d' []; subst.
  - cbn [mr_rounds] in H. destruct (rand_range false 8 (ofZ p) d') as [a| | |] eqn:E.
    2-4: exfalso; destruct (calc_ok p Hp) as (k & o & Ec & _); unfold passes_mr in H; rewrite Ec in H; cbn [bind] in H; rewrite E in H; cbn in H; discriminate.
    exists a. split; auto. destruct (passes_ok p d' a Hp) as (r & Er & S & _); auto; [apply HD; left; auto|].
    apply S. rewrite Er in H. cbn [bind] in H. destruct r; auto. discriminate.
  - apply IH; auto; [intros; apply HD; right; auto|]. cbn [mr_rounds] in H.
    destruct (passes_mr (ofZ p) d) as [[|]| | |]; cbn [bind] in H; try discriminate; auto.
Qed.

Lemma mr_rounds_complete p ds : prime p -> (forall d, In d ds -> draw_for p d /\ exists a, rand_range false 8 (ofZ p) d = Ok a /\ mval a <> 0) ->
  mr_rounds (ofZ p) ds = Ok true.
Proof.
  intros P. pose proof (prime_ge_2 p P). induction ds as [|d ds IH]; intro H0; [reflexivity|]. cbn [mr_rounds].
  destruct (H0 d ltac:(left; auto)) as (D & a & E & NZ). destruct (passes_ok p d a ltac:(lia) D E) as (r & Er & _ & C).
  rewrite Er, (C P NZ). cbn [bind]. apply IH. intros; apply H0; right; auto.
Qed.

Lemma is_prime_complete p d1 d2 d3 d4 d5 : canon p -> prime (mval p) ->
  (forall d, In d [d1; d2; d3; d4; d5] -> draw_for (mval p) d /\ exists a, rand_range false 8 p d = Ok a /\ mval a <> 0) ->
  is_prime p d1 d2 d3 d4 d5 = Ok true.
Proof.
  intros C P H. rewrite (canon_is_ofZ p C) in *. rewrite mval_ofZ in *. set (x := mval p) in *. clearbody x. clear C p.
  pose proof (prime_ge_2 x P). unfold is_prime. destruct (obviously_ok x small_primes) as (r & E & R); [lia| |].
  { eapply Forall_impl; [|apply small_primes_range]. cbn; intros; lia. }
  rewrite E. cbn [bind]. destruct R as [[-> I]|[[-> (q & I & D & N)]|[-> F]]]; [reflexivity| |].
  - exfalso. pose proof small_primes_range as SR. rewrite Forall_forall in SR. specialize (SR q I). cbn beta in SR.
    apply (prime_divisors x P) in D. lia.
  - apply mr_rounds_complete; auto.
Qed.

Lemma is_prime_sound p d1 d2 d3 d4 d5 : canon p -> 1 < mval p -> (forall d, In d [d1; d2; d3; d4; d5] -> draw_for (mval p) d) ->
  is_prime p d1 d2 d3 d4 d5 = Ok true ->
  In (mval p) small_primes \/
  (forall q, In q small_primes -> ~ (q | mval p)) /\
   forall d, In d [d1; d2; d3; d4; d5] -> exists a, rand_range false 8 p d = Ok a /\ miller_rabin (mval p) (mval a).
Proof.
  intros C P H T. rewrite (canon_is_ofZ p C) in *. rewrite mval_ofZ in *. set (x := mval p) in *. clearbody x. clear C p.
  unfold is_prime in T. destruct (obviously_ok x small_primes) as (r & E & R); [lia| |].
  { eapply Forall_impl; [|apply small_primes_range]. cbn; intros; lia. }
  rewrite E in T. cbn [bind] in T. destruct R as [[-> I]|[[-> (q & I & D & N)]|[-> F]]]; [left; auto|discriminate|right; split; auto].
  apply mr_rounds_sound; auto.
Qed.

(** *** List initialisation *)
Lemma clear_n_firstn {A} n (l : list A) : clear_n n l = map EClear (firstn n l).
Proof. revert l. induction n as [|n IH]; intros [|x l]; cbn; auto. rewrite IH. reflexivity. Qed.

Lemma list_init_loop_ok {A} ok rc (all : list A) : forall l n,
  (forall i, (n <= i < n + length l)%nat -> ok i = true) /\ list_init_loop ok rc all l n = (0, map EInit l) \/
  exists k x, nth_error l k = Some x /\ ok (n + k)%nat = false /\ (forall i, (n <= i < n + k)%nat -> ok i = true) /\
    list_init_loop ok rc all l n = (rc, map EInit (firstn k l) ++ EFail x :: map EClear (firstn (n + k) all)).
Proof.
  induction l as [|x l IH]; intro n; cbn [list_init_loop length map].
  - left. split; auto. lia.
  - destruct (ok n) eqn:O.
    + destruct (IH (S n)) as [[F E]|(k & y & N & K & F & E)]; rewrite E.
      * left. split; auto. intros i Hi. destruct (Nat.eq_dec i n) as [->|]; auto. apply F. lia.
      * right. exists (S k), y. split; auto. replace (n + S k)%nat with (S n + k)%nat by lia. split; auto. split.
        { intros i Hi. destruct (Nat.eq_dec i n) as [->|]; auto. apply F. lia. }
        reflexivity.
    + right. exists 0%nat, x. rewrite Nat.add_0_r. split; auto. split; auto. split; [lia|]. rewrite clear_n_firstn. reflexivity.
Qed.
