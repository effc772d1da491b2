(** Proofs about the CRC code. *)
From Verif Require Import Base Bits Poly2Spec Poly2 CrcSpec CrcModel.

(** *** Reading registers in reverse *)
Lemma poly_snoc l b : poly (l ++ [b]) = 2 * poly l + Z.b2z b.
Proof. unfold poly. rewrite fold_left_app. reflexivity. Qed.
Lemma poly_nonneg l : 0 <= poly l.
Proof. induction l as [|b l IH] using rev_ind; [cbn; lia|]. rewrite poly_snoc. destruct b; cbn [Z.b2z]; lia. Qed.

Lemma poly_testbit l : forall i, 0 <= i -> Z.testbit (poly l) i =
  if i <? Z.of_nat (length l) then nth (Z.to_nat (Z.of_nat (length l) - 1 - i)) l false else false.
Proof.
  induction l as [|b l IH] using rev_ind; intros i Hi.
  - cbn. rewrite Z.bits_0. destruct (Z.ltb_spec i 0); auto; destruct (Z.to_nat _); auto.
  - rewrite poly_snoc, app_length. cbn [length]. destruct (Z.eq_dec i 0) as [->|N].
    + destruct (Z.ltb_spec 0 (Z.of_nat (length l + 1))); [|lia].
      replace (Z.to_nat (Z.of_nat (length l + 1) - 1 - 0)) with (length l) by lia. rewrite app_nth2, Nat.sub_diag by lia. cbn [nth].
      destruct b; cbn [Z.b2z]; [apply Z.testbit_odd_0|rewrite Z.add_0_r; apply Z.testbit_even_0].
    + replace (Z.testbit (2 * poly l + Z.b2z b) i) with (Z.testbit (poly l) (i - 1)).
      2:{ replace i with (Z.succ (i - 1)) at 2 by lia. destruct b; cbn [Z.b2z];
          [rewrite Z.testbit_odd_succ by lia|rewrite Z.add_0_r, Z.testbit_even_succ by lia]; reflexivity. }
      rewrite IH by lia. destruct (Z.ltb_spec (i - 1) (Z.of_nat (length l))), (Z.ltb_spec i (Z.of_nat (length l + 1))); try lia; auto.
      rewrite app_nth1 by lia. f_equal. lia.
Qed.

Lemma bits_lsb_nth n v i : (i < n)%nat -> nth i (bits_lsb n v) false = Z.testbit v (Z.of_nat i).
Proof.
  intro H. unfold bits_lsb. rewrite (nth_indep _ false (Z.testbit v (Z.of_nat 0))) by (rewrite map_length, seq_length; auto).
  rewrite (map_nth (fun i => Z.testbit v (Z.of_nat i))). rewrite seq_nth by auto. reflexivity.
Qed.
Lemma bits_lsb_length n v : length (bits_lsb n v) = n.
Proof. unfold bits_lsb. rewrite map_length, seq_length. reflexivity. Qed.

Lemma refl_testbit w v i : 0 <= i -> Z.testbit (refl w v) i = if i <? Z.of_nat w then Z.testbit v (Z.of_nat w - 1 - i) else false.
Proof.
  intro Hi. unfold refl. rewrite poly_testbit, bits_lsb_length by auto. destruct (Z.ltb_spec i (Z.of_nat w)); auto.
  rewrite bits_lsb_nth by lia. f_equal. lia.
Qed.
Lemma refl_bound w v : 0 <= refl w v < 2 ^ Z.of_nat w.
Proof.
  split; [apply poly_nonneg|]. destruct (Z_lt_le_dec (refl w v) (2 ^ Z.of_nat w)) as [|H]; auto. exfalso.
  pose proof (pow2_pos (Z.of_nat w) ltac:(lia)). assert (P : 0 < refl w v) by lia.
  pose proof (Z.bit_log2 _ P) as T. pose proof (Z.log2_le_mono _ _ H) as L. rewrite Z.log2_pow2 in L by lia.
  rewrite refl_testbit in T by apply Z.log2_nonneg. destruct (Z.ltb_spec (Z.log2 (refl w v)) (Z.of_nat w)); [lia|discriminate].
Qed.
Lemma refl_inj w v v' : 0 <= v < 2 ^ Z.of_nat w -> 0 <= v' < 2 ^ Z.of_nat w -> refl w v = refl w v' -> v = v'.
Proof.
  intros Hv Hv' E. apply Z.bits_inj'. intros i Hi. destruct (Z_lt_le_dec i (Z.of_nat w)) as [L|L].
  - pose proof (f_equal (fun x => Z.testbit x (Z.of_nat w - 1 - i)) E) as F. cbn beta in F.
    rewrite !refl_testbit in F by lia. destruct (Z.ltb_spec (Z.of_nat w - 1 - i) (Z.of_nat w)); [|lia].
    replace (Z.of_nat w - 1 - (Z.of_nat w - 1 - i)) with i in F by lia. auto.
  - rewrite !(testbit_small _ (Z.of_nat w)) by lia. reflexivity.
Qed.

(** *** The bit-serial register *)
Definition fstep (rp s : Z) : Z := Z.lxor (Z.shiftr s 1) (if Z.odd s then rp else 0).
Definition bstep (rp s : Z) (b : bool) : Z := fstep rp (Z.lxor s (Z.b2z b)).

Definition good (w : nat) (g rp : Z) : Prop :=
  (0 < w)%nat /\ 0 <= g < 2 ^ (Z.of_nat w + 1) /\ Z.testbit g (Z.of_nat w) = true /\ 0 <= rp < 2 ^ Z.of_nat w /\
  forall i, 0 <= i < Z.of_nat w -> Z.testbit g i = Z.testbit rp (Z.of_nat w - 1 - i).

Lemma fstep_bound w rp s : (0 < w)%nat -> 0 <= rp < 2 ^ Z.of_nat w -> 0 <= s < 2 ^ Z.of_nat w -> 0 <= fstep rp s < 2 ^ Z.of_nat w.
Proof.
  intros Hw Hr Hs. unfold fstep. apply lxor_bound; [lia| |destruct (Z.odd s); lia].
  rewrite Z.shiftr_div_pow2 by lia. change (2 ^ 1) with 2. split; [apply Z.div_pos; lia|]. apply Z.div_lt_upper_bound; lia.
Qed.
Lemma b2z_bound w b : (0 < w)%nat -> 0 <= Z.b2z b < 2 ^ Z.of_nat w.
Proof. intro H. assert (2 ^ 1 <= 2 ^ Z.of_nat w) by (apply Z.pow_le_mono_r; lia). destruct b; cbn [Z.b2z]; lia. Qed.

Lemma b2z_testbit b i : 0 < i -> Z.testbit (Z.b2z b) i = false.
Proof. intro H. apply (testbit_small _ 1); [|lia]. destruct b; cbn; lia. Qed.

Lemma refl_bstep w g rp s b : good w g rp -> 0 <= s < 2 ^ Z.of_nat w ->
  refl w (bstep rp s b) = Z.lxor (Z.lxor (2 * refl w s) (Z.b2z b * 2 ^ Z.of_nat w)) (if xorb (Z.odd s) b then g else 0).
Proof.
  intros (Hw & Hg & Tg & Hrp & R) Hs. set (W := Z.of_nat w) in *.
  assert (OD : Z.odd (Z.lxor s (Z.b2z b)) = xorb (Z.odd s) b).
  { rewrite <- !Z.bit0_odd, Z.lxor_spec. f_equal. destruct b; reflexivity. }
  apply Z.bits_inj'. intros i Hi. rewrite !Z.lxor_spec, refl_testbit by auto. fold W.
  assert (TB : Z.testbit (Z.b2z b * 2 ^ W) i = if i =? W then b else false).
  { rewrite Z.mul_pow2_bits by lia. destruct (Z.eqb_spec i W) as [->|N]; [rewrite Z.sub_diag; destruct b; reflexivity|].
    destruct (Z_lt_le_dec i W); [apply Z.testbit_neg_r; lia|]. apply b2z_testbit. lia. }
  rewrite TB. clear TB. unfold bstep, fstep. rewrite OD. set (c := xorb (Z.odd s) b) in *.
  assert (TG : forall j, Z.testbit (if c then g else 0) j = (c && Z.testbit g j)%bool) by (intro j; destruct c; [reflexivity|apply Z.bits_0]).
  rewrite TG. assert (TR : forall j, Z.testbit (if c then rp else 0) j = (c && Z.testbit rp j)%bool) by (intro j; destruct c; [reflexivity|apply Z.bits_0]).
  destruct (Z.ltb_spec i W) as [L|L].
  - destruct (Z.eqb_spec i W); [lia|]. rewrite Z.lxor_spec, TR, <- R by lia. rewrite Z.shiftr_spec, Z.lxor_spec by lia.
    rewrite b2z_testbit by lia. rewrite !Bool.xorb_false_r. f_equal.
    destruct (Z.eq_dec i 0) as [->|N].
    + change (2 * refl w s) with (2 * refl w s). rewrite Z.testbit_even_0. apply (testbit_small s W); lia.
    + replace i with (Z.succ (i - 1)) at 2 by lia. rewrite Z.testbit_even_succ, refl_testbit by lia. fold W.
      destruct (Z.ltb_spec (i - 1) W); [|lia]. f_equal. lia.
  - replace i with (Z.succ (i - 1)) at 1 by lia. rewrite Z.testbit_even_succ, refl_testbit by lia. fold W.
    destruct (Z.eqb_spec i W) as [->|N].
    + destruct (Z.ltb_spec (W - 1) W); [|lia]. replace (W - 1 - (W - 1)) with 0 by lia. rewrite Tg, Z.bit0_odd. subst c.
      destruct (Z.odd s), b; reflexivity.
    + destruct (Z.ltb_spec (i - 1) W); [lia|]. rewrite (testbit_small g (W + 1)) by lia. destruct c; reflexivity.
Qed.

Lemma bstep_bound w rp s b : (0 < w)%nat -> 0 <= rp < 2 ^ Z.of_nat w -> 0 <= s < 2 ^ Z.of_nat w -> 0 <= bstep rp s b < 2 ^ Z.of_nat w.
Proof. intros Hw Hr Hs. apply fstep_bound; auto. apply lxor_bound; auto; [lia|]. apply b2z_bound; auto. Qed.

Lemma poly_app_len {A} (l : list A) b : length (l ++ [b]) = S (length l).
Proof. rewrite app_length. cbn. lia. Qed.

Lemma serial_ok w g rp init bs : good w g rp -> 0 <= init < 2 ^ Z.of_nat w ->
  let r := fold_left (bstep rp) bs init in
  0 <= r < 2 ^ Z.of_nat w /\
  is_rem (Z.of_nat w) g (Z.lxor (poly bs * 2 ^ Z.of_nat w) (refl w init * 2 ^ Z.of_nat (length bs))) (refl w r).
Proof.
  intros G Hi. pose proof G as (Hw & Hg & Tg & Hrp & R). induction bs as [|b bs (IB & _ & q & Hq & E)] using rev_ind.
  - cbn [fold_left length poly]. split; auto. change (Z.of_nat 0) with 0. rewrite Z.pow_0_r, Z.mul_1_r.
    change (poly [] * 2 ^ Z.of_nat w) with 0. rewrite Z.lxor_0_l. apply is_rem_same, refl_bound.
  - rewrite fold_left_app. cbn [fold_left]. set (r := fold_left (bstep rp) bs init) in *.
    split; [apply bstep_bound; auto|]. split; [apply refl_bound|].
    set (c := xorb (Z.odd r) b). exists (2 * q + Z.b2z c). split; [destruct c; cbn [Z.b2z]; lia|].
    rewrite (refl_bstep w g) by auto. fold c. rewrite poly_snoc, poly_app_len, Nat2Z.inj_succ, Z.pow_succ_r by lia.
    assert (C : clmul (2 * q + Z.b2z c) g = Z.lxor (2 * clmul q g) (if c then g else 0)).
    { destruct c; cbn [Z.b2z]; [rewrite clmul_odd by lia; apply Z.lxor_comm|rewrite Z.add_0_r, clmul_even, Z.lxor_0_r; reflexivity]. }
    rewrite C. clear C. set (cg := if c then g else 0). set (A := clmul q g) in *. set (P := refl w r) in *.
    assert (PP : (2 * poly bs + Z.b2z b) * 2 ^ Z.of_nat w = Z.lxor (2 * (poly bs * 2 ^ Z.of_nat w)) (Z.b2z b * 2 ^ Z.of_nat w)).
    { pose proof (poly_nonneg bs). rewrite Z.mul_add_distr_r, <- Z.mul_assoc. set (X := poly bs) in *.
      replace (2 * (X * 2 ^ Z.of_nat w)) with (X * 2 ^ (Z.of_nat w + 1)) by (rewrite Z.pow_add_r by lia; change (2 ^ 1) with 2; ring).
      assert (BZ : 0 <= Z.b2z b * 2 ^ Z.of_nat w < 2 ^ (Z.of_nat w + 1)).
      { rewrite Z.pow_add_r by lia. change (2 ^ 1) with 2. pose proof (pow2_pos (Z.of_nat w) ltac:(lia)). destruct b; cbn [Z.b2z]; lia. }
      rewrite <- (lor_shifted_small X _ (Z.of_nat w + 1)) by (auto; lia).
      symmetry. apply Z.bits_inj'. intros i Hi'. rewrite Z.lxor_spec, Z.lor_spec.
      destruct (Z_lt_le_dec i (Z.of_nat w + 1)); [rewrite Z.mul_pow2_bits_low by lia; destruct (Z.testbit _ i); reflexivity|].
      rewrite (testbit_small (Z.b2z b * _) (Z.of_nat w + 1)) by lia. destruct (Z.testbit _ i); reflexivity. }
    rewrite PP. clear PP.
    replace (refl w init * (2 * 2 ^ Z.of_nat (length bs))) with (2 * (refl w init * 2 ^ Z.of_nat (length bs))) by ring.
    set (BB := Z.b2z b * 2 ^ Z.of_nat w). set (M := poly bs * 2 ^ Z.of_nat w) in *. set (I := refl w init * 2 ^ Z.of_nat (length bs)) in *.
    assert (E2 : Z.lxor (2 * A) (2 * P) = Z.lxor (2 * M) (2 * I)) by (rewrite !lxor_double, E; reflexivity).
    transitivity (Z.lxor (Z.lxor (2 * M) (2 * I)) BB); [rewrite <- E2|]; clear; xor_solve.
Qed.

(** *** Table lookup = eight bit steps *)
Lemma lxor_4 a b c d : Z.lxor (Z.lxor a b) (Z.lxor c d) = Z.lxor (Z.lxor a c) (Z.lxor b d).
Proof. apply Z.bits_inj'. intros i _. rewrite !Z.lxor_spec. destruct (Z.testbit a i), (Z.testbit b i), (Z.testbit c i), (Z.testbit d i); reflexivity. Qed.
Lemma fstep_lin rp a b : fstep rp (Z.lxor a b) = Z.lxor (fstep rp a) (fstep rp b).
Proof.
  unfold fstep. rewrite Z.shiftr_lxor. rewrite lxor_4. f_equal.
  replace (Z.odd (Z.lxor a b)) with (xorb (Z.odd a) (Z.odd b)) by (rewrite <- !Z.bit0_odd, Z.lxor_spec; reflexivity).
  destruct (Z.odd a), (Z.odd b); cbn [xorb]; rewrite ?Z.lxor_0_r, ?Z.lxor_0_l, ?Z.lxor_nilpotent; reflexivity.
Qed.
Lemma fstep_double rp v : fstep rp (2 * v) = v.
Proof.
  unfold fstep. rewrite Z.odd_mul. cbn [Z.odd andb]. rewrite Z.lxor_0_r, Z.shiftr_div_pow2 by lia.
  change (2 ^ 1) with 2. rewrite Z.mul_comm. apply Z.div_mul. lia.
Qed.

Fixpoint iterf (rp : Z) (n : nat) (s : Z) : Z := match n with O => s | S m => iterf rp m (fstep rp s) end.
Lemma iterf_lin rp n : forall a b, iterf rp n (Z.lxor a b) = Z.lxor (iterf rp n a) (iterf rp n b).
Proof. induction n as [|n IH]; intros a b; cbn [iterf]; auto. rewrite fstep_lin. apply IH. Qed.
Lemma iterf_shift rp n : forall v, iterf rp n (v * 2 ^ Z.of_nat n) = v.
Proof.
  induction n as [|n IH]; intro v; cbn [iterf].
  - change (Z.of_nat 0) with 0. rewrite Z.pow_0_r. lia.
  - rewrite Nat2Z.inj_succ, Z.pow_succ_r by lia. replace (v * (2 * 2 ^ Z.of_nat n)) with (2 * (v * 2 ^ Z.of_nat n)) by ring.
    rewrite fstep_double. apply IH.
Qed.

Lemma bits_lsb_S n v : bits_lsb (S n) v = Z.testbit v 0 :: bits_lsb n (v / 2).
Proof.
  unfold bits_lsb. cbn [seq map]. f_equal. rewrite <- seq_shift, map_map. apply map_ext. intro i.
  change 2 with (2 ^ 1). rewrite <- Z.shiftr_div_pow2, Z.shiftr_spec by lia. f_equal. lia.
Qed.

Lemma serial_bits rp n : forall s v, 0 <= v < 2 ^ Z.of_nat n -> fold_left (bstep rp) (bits_lsb n v) s = iterf rp n (Z.lxor s v).
Proof.
  induction n as [|n IH]; intros s v Hv.
  - change (Z.of_nat 0) with 0 in Hv. rewrite Z.pow_0_r in Hv. replace v with 0 by lia. rewrite Z.lxor_0_r. reflexivity.
  - rewrite bits_lsb_S. cbn [fold_left iterf]. rewrite Nat2Z.inj_succ, Z.pow_succ_r in Hv by lia.
    rewrite IH. 2:{ split; [apply Z.div_pos; lia|apply Z.div_lt_upper_bound; lia]. }
    f_equal. unfold bstep. rewrite <- (fstep_double rp (v / 2)) at 1. rewrite <- fstep_lin. f_equal.
    rewrite Z.lxor_assoc. f_equal. rewrite Z.bit0_odd. pose proof (Z.div_mod v 2 ltac:(lia)) as D. rewrite Zmod_odd in D.
    destruct (Z.odd v); cbn [Z.b2z].
    + rewrite D at 2. rewrite Z.lxor_comm, <- (Z.add_0_r (2 * (v / 2))) at 1. rewrite Z.add_0_r, Z.lxor_comm.
      change 1 with (2 * 0 + 1) at 1. rewrite lxor_double_1, Z.lxor_0_l. reflexivity.
    + rewrite Z.lxor_0_l. lia.
Qed.

Definition tab_good (rp : Z) (tab : list Z) : Prop :=
  forallb (fun i => nth (Z.to_nat i) tab 0 =? iterf rp 8 i) (map Z.of_nat (seq 0 256)) = true.

Lemma crc_byte_serial rp tab crc b : tab_good rp tab -> 0 <= crc -> byte b ->
  crc_byte tab crc b = fold_left (bstep rp) (bits_lsb 8 b) crc.
Proof.
  intros T Hc Hb. unfold byte in Hb. rewrite serial_bits by (change (2 ^ Z.of_nat 8) with 256; lia). unfold crc_byte.
  set (s := Z.lxor crc b). rewrite (Z.lxor_comm b crc). fold s. assert (Hs : 0 <= s) by (apply Z.lxor_nonneg; lia).
  change 0xFF with (Z.ones 8). rewrite Z.land_ones by lia. change (2 ^ 8) with 256.
  pose proof (Z.mod_pos_bound s 256 ltac:(lia)) as MB.
  unfold tab_good in T. rewrite forallb_forall in T. specialize (T (s mod 256)). cbn beta in T.
  assert (E : nth (Z.to_nat (s mod 256)) tab 0 = iterf rp 8 (s mod 256)).
  { apply Z.eqb_eq, T. apply in_map_iff. exists (Z.to_nat (s mod 256)). split; [lia|]. apply in_seq. lia. }
  rewrite E. clear T E.
  assert (SS : s = Z.lxor (s mod 256) (Z.shiftr crc 8 * 2 ^ Z.of_nat 8)).
  { apply Z.bits_inj'. intros i Hi. rewrite Z.lxor_spec. change (Z.of_nat 8) with 8. change 256 with (2 ^ 8).
    destruct (Z_lt_le_dec i 8).
    - rewrite Z.mod_pow2_bits_low, Z.mul_pow2_bits_low, Bool.xorb_false_r by lia. reflexivity.
    - rewrite Z.mod_pow2_bits_high by lia. rewrite Z.mul_pow2_bits, Z.shiftr_spec by lia. replace (i - 8 + 8) with i by lia. subst s. rewrite Z.lxor_spec.
      rewrite (testbit_small b 8) by (change (2 ^ 8) with 256; lia). rewrite Bool.xorb_false_r, Bool.xorb_false_l. reflexivity. }
  rewrite SS at 2. rewrite iterf_lin, iterf_shift. reflexivity.
Qed.

Lemma crc_ok w g rp tab init m : good w g rp -> tab_good rp tab -> 0 <= init < 2 ^ Z.of_nat w -> bytes m ->
  is_crc w g init m (crc_update tab init m).
Proof.
  intros G T Hi Hm.
  assert (E : forall m, bytes m -> crc_update tab init m = fold_left (bstep rp) (msg_bits m) init).
  { clear m Hm. intros m Hm. induction m as [|b m IH] using rev_ind; [reflexivity|]. apply Forall_app in Hm as [Hm Hb].
    inversion Hb; subst. unfold crc_update, msg_bits in *. rewrite flat_map_app, !fold_left_app, IH by auto. cbn [fold_left flat_map app].
    rewrite app_nil_r. apply crc_byte_serial; auto. apply (serial_ok w g rp init (flat_map (bits_lsb 8) m)); auto. }
  unfold is_crc. rewrite E by auto. apply serial_ok; auto.
Qed.

Lemma is_crc_unique w g rp init m r r' : good w g rp -> is_crc w g init m r -> is_crc w g init m r' -> r = r'.
Proof.
  intros (Hw & Hg & Tg & _) [B1 R1] [B2 R2]. eapply refl_inj; eauto. eapply is_rem_unique; eauto. lia.
Qed.

(** *** Instances *)
Definition goodb (w : nat) (g rp : Z) : bool :=
  ((0 <? Z.of_nat w) && (0 <=? g) && (g <? 2 ^ (Z.of_nat w + 1)) && Z.testbit g (Z.of_nat w) && (0 <=? rp) && (rp <? 2 ^ Z.of_nat w)
   && forallb (fun i => Bool.eqb (Z.testbit g (Z.of_nat i)) (Z.testbit rp (Z.of_nat w - 1 - Z.of_nat i))) (seq 0 w))%bool.
Lemma goodb_ok w g rp : goodb w g rp = true -> good w g rp.
Proof.
  unfold goodb. rewrite !Bool.andb_true_iff, forallb_forall. intros ((((((A & B) & C) & D) & E) & F) & H).
  split; [lia|]. split; [lia|]. split; auto. split; [lia|]. intros i Hi. specialize (H (Z.to_nat i)).
  rewrite Z2Nat.id in H by lia. apply Bool.eqb_prop, H, in_seq. lia.
Qed.
Lemma good_ccitt : good 16 0x11021 0x8408. Proof. apply goodb_ok. vm_compute. reflexivity. Qed.
Lemma good_ibm : good 16 0x18005 0xA001. Proof. apply goodb_ok. vm_compute. reflexivity. Qed.
Lemma good_dnp : good 16 0x13D65 0xA6BC. Proof. apply goodb_ok. vm_compute. reflexivity. Qed.
Lemma good_eth : good 32 0x104C11DB7 0xEDB88320. Proof. apply goodb_ok. vm_compute. reflexivity. Qed.

Lemma crc_ccitt_ok init m : 0 <= init < 2 ^ 16 -> bytes m -> is_crc 16 0x11021 init m (crc_update tab_ccitt init m).
Proof. intros. apply (crc_ok 16 _ 0x8408); auto; [apply good_ccitt|vm_compute; reflexivity]. Qed.
Lemma crc_ibm_ok init m : 0 <= init < 2 ^ 16 -> bytes m -> is_crc 16 0x18005 init m (crc_update tab_ibm init m).
Proof. intros. apply (crc_ok 16 _ 0xA001); auto; [apply good_ibm|vm_compute; reflexivity]. Qed.
Lemma crc_dnp_ok init m : 0 <= init < 2 ^ 16 -> bytes m -> is_crc 16 0x13D65 init m (crc_update tab_dnp init m).
Proof. intros. apply (crc_ok 16 _ 0xA6BC); auto; [apply good_dnp|vm_compute; reflexivity]. Qed.
Lemma crc_eth_ok init m : 0 <= init < 2 ^ 32 -> bytes m -> is_crc 32 0x104C11DB7 init m (crc_update tab_eth init m).
Proof. intros. apply (crc_ok 32 _ 0xEDB88320); auto; [apply good_eth|vm_compute; reflexivity]. Qed.

Lemma crc_chunks tab init cs : crc_update tab init (concat cs) = fold_left (crc_update tab) cs init.
Proof. revert init. induction cs as [|c cs IH]; intro init; [reflexivity|]. cbn [concat fold_left]. rewrite <- IH. apply fold_left_app. Qed.

(** *** Final steps *)
Lemma lxor_ones w r : 0 <= w -> 0 <= r < 2 ^ w -> Z.lxor r (Z.ones w) = 2 ^ w - 1 - r.
Proof.
  intros Hw Hr. assert (L : Z.land r (Z.lxor r (Z.ones w)) = 0).
  { apply Z.bits_inj'. intros i Hi. rewrite Z.land_spec, Z.lxor_spec, Z.bits_0. destruct (Z_lt_le_dec i w).
    - rewrite Z.ones_spec_low by lia. destruct (Z.testbit r i); reflexivity.
    - rewrite (testbit_small r w) by lia. reflexivity. }
  apply Z.add_nocarry_lxor in L. rewrite <- Z.lxor_assoc, Z.lxor_nilpotent, Z.lxor_0_l in L. pose proof (Z.ones_equiv w). lia.
Qed.

Lemma swap16 c : 0 <= c < 2 ^ 16 -> Z.lor (Z.shiftl c 8 mod 2 ^ 16) (Z.shiftr c 8) = c mod 256 * 256 + c / 256.
Proof.
  intro H. rewrite Z.shiftr_div_pow2, Z.shiftl_mul_pow2 by lia. replace (2 ^ 16) with (256 * 2 ^ 8) by reflexivity.
  rewrite Z.mul_mod_distr_r by lia. rewrite lor_shifted_small; [reflexivity|lia|].
  change (2 ^ 8) with 256. change (2 ^ 16) with 65536 in H. split; [apply Z.div_pos; lia|apply Z.div_lt_upper_bound; lia].
Qed.

Lemma crc16_final_ok compl swap r : 0 <= r < 2 ^ 16 ->
  crc16_final compl swap r =
    let c := if compl then 2 ^ 16 - 1 - r else r in if swap then c mod 256 * 256 + c / 256 else c.
Proof.
  intro H. unfold crc16_final. change 0xFFFF with (Z.ones 16). rewrite lxor_ones by lia. cbv zeta.
  set (c := if compl then _ else _). assert (0 <= c < 2 ^ 16) by (subst c; destruct compl; lia). clearbody c.
  destruct swap; auto. apply swap16; auto.
Qed.

Lemma land_field c n m : 0 <= n -> 0 <= m -> Z.land c (Z.ones n * 2 ^ m) = (c / 2 ^ m) mod 2 ^ n * 2 ^ m.
Proof.
  intros Hn Hm. rewrite <- Z.shiftr_div_pow2, <- Z.land_ones, <- !Z.shiftl_mul_pow2 by lia. apply Z.bits_inj'. intros i Hi.
  rewrite Z.land_spec, !Z.shiftl_spec, Z.land_spec by lia. destruct (Z_lt_le_dec i m).
  - rewrite !(Z.testbit_neg_r _ (i - m)) by lia. destruct (Z.testbit c i); reflexivity.
  - rewrite Z.shiftr_spec by lia. replace (i - m + m) with i by lia. reflexivity.
Qed.

Lemma crc32_final_ok compl swap r : 0 <= r < 2 ^ 32 ->
  crc32_final compl swap r =
    let c := if compl then 2 ^ 32 - 1 - r else r in
    if swap then c mod 256 * 2 ^ 24 + (c / 2 ^ 8) mod 256 * 2 ^ 16 + (c / 2 ^ 16) mod 256 * 2 ^ 8 + (c / 2 ^ 24) mod 256 else c.
Proof.
  intro H. unfold crc32_final. change 0xFFFFFFFF with (Z.ones 32). rewrite lxor_ones by lia. cbv zeta.
  set (c := if compl then _ else _). assert (Hc : 0 <= c < 2 ^ 32) by (subst c; destruct compl; lia). clearbody c.
  destruct swap; auto.
  change 0xff with (Z.ones 8 * 2 ^ 0). change 0xff00 with (Z.ones 8 * 2 ^ 8). change 0xff0000 with (Z.ones 8 * 2 ^ 16). change 0xff000000 with (Z.ones 8 * 2 ^ 24).
  rewrite !land_field by lia. rewrite !Z.shiftl_mul_pow2, !Z.shiftr_div_pow2 by lia. rewrite Z.pow_0_r, Z.div_1_r, Z.mul_1_r.
  change (c mod 2 ^ 8) with (c mod 256). change ((c / 2 ^ 8) mod 2 ^ 8) with ((c / 2 ^ 8) mod 256).
  change ((c / 2 ^ 16) mod 2 ^ 8) with ((c / 2 ^ 16) mod 256). change ((c / 2 ^ 24) mod 2 ^ 8) with ((c / 2 ^ 24) mod 256).
  set (b0 := c mod 256). set (b1 := (c / 2 ^ 8) mod 256). set (b2 := (c / 2 ^ 16) mod 256). set (b3 := (c / 2 ^ 24) mod 256).
  assert (0 <= b0 < 256) by (apply Z.mod_pos_bound; lia). assert (0 <= b1 < 256) by (apply Z.mod_pos_bound; lia).
  assert (0 <= b2 < 256) by (apply Z.mod_pos_bound; lia). assert (0 <= b3 < 256) by (apply Z.mod_pos_bound; lia).
  clearbody b0 b1 b2 b3. rewrite Z.div_mul by lia.
  replace (b2 * 2 ^ 16 / 2 ^ 8) with (b2 * 2 ^ 8) by (change (2 ^ 16) with (2 ^ 8 * 2 ^ 8); rewrite Z.mul_assoc, Z.div_mul by lia; reflexivity).
  replace (b1 * 2 ^ 8 * 2 ^ 8) with (b1 * 2 ^ 16) by (change (2 ^ 16) with (2 ^ 8 * 2 ^ 8); ring).
  rewrite (lor_shifted_small b0 (b1 * 2 ^ 16) 24) by (change (2 ^ 24) with 16777216; change (2 ^ 16) with 65536; lia).
  replace (b0 * 2 ^ 24 + b1 * 2 ^ 16) with ((b0 * 2 ^ 8 + b1) * 2 ^ 16) by (change (2 ^ 24) with (2 ^ 8 * 2 ^ 16); ring).
  rewrite (lor_shifted_small _ (b2 * 2 ^ 8) 16) by (change (2 ^ 8) with 256; change (2 ^ 16) with 65536; lia).
  replace ((b0 * 2 ^ 8 + b1) * 2 ^ 16 + b2 * 2 ^ 8) with (((b0 * 2 ^ 8 + b1) * 2 ^ 8 + b2) * 2 ^ 8) by (change (2 ^ 16) with (2 ^ 8 * 2 ^ 8); ring).
  rewrite (lor_shifted_small _ b3 8) by (change (2 ^ 8) with 256; lia).
  change (2 ^ 24) with (2 ^ 8 * 2 ^ 8 * 2 ^ 8). change (2 ^ 16) with (2 ^ 8 * 2 ^ 8). ring.
Qed.
