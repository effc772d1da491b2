(** Correctness of text conversion, random generation, primality, list
    initialisation. *)
From Coq Require Import Znumtheory.
From Verif Require Import Base Bits BytesSpec Bytes Fermat MpiModel MpiSpec MpiDigits MpiMulModel MpiMul MpiMul2 MpiSqr MpiCanon MpiDivModel MpiDiv MpiAlgModel MpiAlg MpiAlg2 MpiIOModel MpiIO MpiTextSpec.

Ltac Zify.zify_post_hook ::= idtac.

(** *** Positional notation *)
Lemma num_acc r s : forall v, fold_left (fun v c => v * r + char_val c) s v = v * r ^ Z.of_nat (length s) + num_val r s.
Proof.
  unfold num_val. induction s as [|c s IH]; intro v; cbn [fold_left length]; [rewrite Z.pow_0_r; lia|].
  rewrite IH, (IH (0 * r + char_val c)), Nat2Z.inj_succ, Z.pow_succ_r by lia. ring.
Qed.
Lemma num_cons r c s : num_val r (c :: s) = char_val c * r ^ Z.of_nat (length s) + num_val r s.
Proof. unfold num_val. cbn [fold_left]. rewrite num_acc. unfold num_val. ring_simplify. reflexivity. Qed.
Lemma num_snoc r s c : num_val r (s ++ [c]) = num_val r s * r + char_val c.
Proof. unfold num_val. rewrite fold_left_app. reflexivity. Qed.
Lemma num_nonneg r s : 0 <= r -> Forall (valid_digit r) s -> 0 <= num_val r s.
Proof.
  intros Hr. induction 1 as [|c s Hc _ IH]; [cbn; lia|]. rewrite num_cons. unfold valid_digit in Hc.
  assert (0 <= r ^ Z.of_nat (length s)) by (apply Z.pow_nonneg; auto). nia.
Qed.

Lemma asc_valid r c : valid_digit r c -> asc_to_raw c = char_val c.
Proof.
  unfold valid_digit, asc_to_raw, char_val. intro H.
  destruct ((48 <=? c) && (c <=? 57))%bool; auto. destruct ((97 <=? c) && (c <=? 122))%bool; [lia|].
  destruct ((65 <=? c) && (c <=? 90))%bool; lia.
Qed.

Lemma raw_asc d r : 0 <= d < r -> r <= 36 -> char_val (raw_to_asc d) = d /\ valid_digit r (raw_to_asc d).
Proof.
  intros H Hr. assert (E : char_val (raw_to_asc d) = d); [|unfold valid_digit; rewrite E; auto].
  unfold raw_to_asc, char_val. destruct (Z.ltb_spec d 10).
  - destruct ((48 <=? 48 + d) && (48 + d <=? 57))%bool eqn:E; lia.
  - destruct ((48 <=? 97 + (d - 10)) && (97 + (d - 10) <=? 57))%bool eqn:E1; [lia|].
    destruct ((97 <=? 97 + (d - 10)) && (97 + (d - 10) <=? 122))%bool eqn:E2; lia.
Qed.

(** *** Import, general radix *)
Lemma one_digit d : 0 < d < B -> mkmpi false [d] = ofZ d.
Proof.
  intro H. apply is_ofZ; [|unfold mval; cbn; lia]. split; [|discriminate]. split; cbn [dg].
  - constructor; [lia|constructor].
  - right. cbn. lia.
Qed.

Lemma add_zero_digit v : 0 < v -> add (ofZ v) (mkmpi false [0]) = Ok (ofZ v).
Proof.
  intro H. pose proof (ofZ_val v) as V. pose proof (ofZ_neg v) as N. pose proof (canon_ofZ v) as [[D _] _].
  destruct (ofZ v) as [n l]. cbn [neg dg] in *. assert (n = false) by (subst n; apply Z.ltb_ge; lia). clear N. subst n.
  destruct l as [|x l]; [cbn in V; lia|]. apply digits_cons in D as [Hx D]. pose proof B_pos as HB.
  unfold add. cbn [neg Bool.eqb]. unfold add_abs, used. cbn [dg length Nat.ltb Nat.leb add_loop set_sign].
  rewrite Z.add_0_r, !Z.mod_small by (rewrite ?Z.mod_small; lia). rewrite Z.add_0_r.
  destruct (Z.ltb_spec x 0); [lia|]. rewrite Z.ltb_irrefl. change (0 + 0) with 0. destruct l; reflexivity.
Qed.

Lemma load_digits_ok r : 2 <= r <= 36 -> forall s v, 0 <= v -> Forall (valid_digit r) s ->
  (v = 0 -> match s with [] => True | c :: _ => char_val c <> 0 end) ->
  load_digits r (ofZ r) (ofZ v) s = Ok (ofZ (v * r ^ Z.of_nat (length s) + num_val r s)).
Proof.
  intro Hr. induction s as [|c s IH]; intros v Hv Hs H0; cbn [load_digits].
  - cbn [length]. change (Z.of_nat 0) with 0. rewrite Z.pow_0_r. change (num_val r []) with 0. do 2 f_equal. lia.
  - inversion Hs as [|? ? Hc Hs' EQ]; subst. rewrite (asc_valid r c Hc). unfold valid_digit in Hc.
    destruct (Z.leb_spec r (char_val c)); [lia|]. rewrite mul_ofZ. cbn [bind].
    assert (A : add (ofZ (v * r)) (mkmpi false [char_val c]) = Ok (ofZ (v * r + char_val c))).
    { destruct (Z.eq_dec (char_val c) 0) as [E|N].
      - rewrite E, Z.add_0_r. apply add_zero_digit. assert (v <> 0) by (intro; apply H0; auto). nia.
      - rewrite one_digit by (unfold B; lia). apply add_ofZ. }
    rewrite A. cbn [bind]. rewrite IH; auto; [| nia |].
    + do 2 f_equal. cbn [length]. rewrite num_cons, Nat2Z.inj_succ, Z.pow_succ_r by lia. ring.
    + intro E. exfalso. assert (char_val c = 0) by nia. assert (v = 0) by nia. apply H0; auto.
Qed.

Lemma char48 : char_val 48 = 0. Proof. reflexivity. Qed.
Lemma char_val_0 c : char_val c = 0 -> c = 48.
Proof.
  unfold char_val. destruct ((48 <=? c) && (c <=? 57))%bool eqn:E1; [lia|].
  destruct ((97 <=? c) && (c <=? 122))%bool eqn:E2; [lia|]. destruct ((65 <=? c) && (c <=? 90))%bool eqn:E3; lia.
Qed.

Lemma skip_chars0_ok r s : num_val r (skip_chars0 s) = num_val r s /\
  (Forall (valid_digit r) s -> Forall (valid_digit r) (skip_chars0 s)) /\
  match skip_chars0 s with [] => True | c :: _ => char_val c <> 0 end.
Proof.
  induction s as [|c s (E & F & H)]; [split; auto; split; auto; cbn; auto|]. cbn [skip_chars0]. destruct (Z.eqb_spec c 48) as [->|N].
  - split; [rewrite num_cons, char48; lia|]. split; auto. intro G. inversion G; auto.
  - split; auto. split; auto. intro Z0. apply char_val_0 in Z0. contradiction.
Qed.

(** *** Import, radix 16 *)
Lemma hex_pair a b : valid_digit 16 a -> valid_digit 16 b ->
  Z.lor (Z.shiftl (asc_to_raw a) 4 mod 256) (asc_to_raw b) = char_val a * 16 + char_val b.
Proof.
  intros Ha Hb. rewrite (asc_valid 16 a), (asc_valid 16 b) by auto. unfold valid_digit in *.
  rewrite Z.shiftl_mul_pow2 by lia. change (2 ^ 4) with 16. rewrite Z.mod_small by lia.
  change (char_val a * 16) with (char_val a * 2 ^ 4). apply lor_shifted_small; lia.
Qed.

Lemma hex_pairs_ok n : forall s, length s = (2 * n)%nat -> Forall (valid_digit 16) s ->
  bytes (hex_pairs s) /\ length (hex_pairs s) = n /\ be_val (hex_pairs s) = num_val 16 s.
Proof.
  induction n as [|n IH]; intros s L V.
  - destruct s; [|discriminate L]. repeat split. constructor.
  - destruct s as [|a [|b s]]; try (cbn in L; lia). inversion V as [|? ? Va V']; subst. inversion V' as [|? ? Vb V'']; subst.
    destruct (IH s) as (Bs & Ls & Es); auto; [cbn in L; lia|]. cbn [hex_pairs].
    rewrite hex_pair by auto. unfold valid_digit in *. split; [constructor; auto; unfold byte; lia|]. split; [cbn; lia|].
    rewrite be_val_cons, Es, Ls, !num_cons. cbn [length]. rewrite Nat2Z.inj_succ, Z.pow_succ_r by lia.
    assert (EL : Z.of_nat (length s) = 2 * Z.of_nat n) by (cbn in L; lia). rewrite EL.
    replace (16 ^ (2 * Z.of_nat n)) with (256 ^ Z.of_nat n) by (rewrite Z.pow_mul_r by lia; reflexivity). ring.
Qed.

Lemma load_str_hex_ok s : Forall (valid_digit 16) s -> load_str_hex s = ofZ (num_val 16 s).
Proof.
  intro V. unfold load_str_hex. destruct (Nat.odd (length s)) eqn:O.
  - destruct s as [|c s]; [discriminate O|]. inversion V as [|? ? Vc V']; subst.
    cbn [length] in O. rewrite Nat.odd_succ in O. apply Nat.even_spec in O as [n L].
    destruct (hex_pairs_ok n s) as (Bs & Ls & Es); auto. rewrite (asc_valid 16 c) by auto.
    rewrite load_bin_ofZ. 2: { constructor; auto. unfold byte, valid_digit in *. lia. }
    rewrite be_val_cons, Es, Ls, num_cons. do 2 f_equal. f_equal.
    rewrite L, Nat2Z.inj_mul. change (Z.of_nat 2) with 2. rewrite (Z.pow_mul_r 16) by lia. reflexivity.
  - assert (E : Nat.even (length s) = true) by (rewrite <- Nat.negb_odd, O; reflexivity). apply Nat.even_spec in E as [n L].
    destruct (hex_pairs_ok n s) as (Bs & Ls & Es); auto. rewrite load_bin_ofZ, Es by auto. reflexivity.
Qed.

Lemma set_sign_ofZ v (sg : bool) : 0 <= v ->
  set_sign (if is_zero (ofZ v) then false else sg) (ofZ v) = ofZ (if sg then - v else v).
Proof.
  intro H. rewrite is_zero_ofZ. destruct (Z.eqb_spec v 0) as [->|N]; [destruct sg; reflexivity|].
  destruct sg.
  - apply is_ofZ.
    + split; [apply (canon_wf _ (canon_ofZ v))|]. cbn [dg set_sign]. intro E. pose proof (ofZ_val v) as V. rewrite E in V. cbn in V. lia.
    + unfold mval. cbn [neg dg set_sign]. rewrite ofZ_val. lia.
  - apply is_ofZ.
    + split; [apply (canon_wf _ (canon_ofZ v))|]. reflexivity.
    + unfold mval. cbn [neg dg set_sign]. rewrite ofZ_val. lia.
Qed.

Lemma digit_not_sign r c : valid_digit r c -> (c =? 45) = false /\ (c =? 43) = false.
Proof.
  unfold valid_digit, char_val. destruct ((48 <=? c) && (c <=? 57))%bool eqn:E1; [lia|].
  destruct ((97 <=? c) && (c <=? 122))%bool eqn:E2; [lia|]. destruct ((65 <=? c) && (c <=? 90))%bool eqn:E3; lia.
Qed.

Lemma load_unsigned r s : 2 <= r <= 36 -> Forall (valid_digit r) s ->
  (if r =? 16 then Ok (load_str_hex s) else do base <- set_int r; load_digits r base mzero (skip_chars0 s)) = Ok (ofZ (num_val r s)).
Proof.
  intros Hr V. destruct (Z.eqb_spec r 16) as [->|N]; [rewrite load_str_hex_ok; auto|].
  rewrite set_int_ofZ by (change (2 ^ 63) with 9223372036854775808; lia). cbn [bind].
  destruct (skip_chars0_ok r s) as (E & F & H). rewrite <- ofZ_0, load_digits_ok; auto; try lia.
  rewrite E. reflexivity.
Qed.

Lemma load_str_ok r s : 2 <= r <= 36 -> Forall (valid_digit r) s ->
  load_str r s = Ok (ofZ (num_val r s)) /\ load_str r (43 :: s) = Ok (ofZ (num_val r s)) /\
  load_str r (45 :: s) = Ok (ofZ (- num_val r s)).
Proof.
  intros Hr V. pose proof (num_nonneg r s ltac:(lia) V) as P. unfold load_str.
  destruct (Z.ltb_spec 36 r); [lia|]. cbn [Z.eqb Pos.eqb].
  assert (E : match s with c :: r0 => if c =? 45 then (true, r0) else if c =? 43 then (false, r0) else (false, s) | [] => (false, []) end = (false, s)).
  { destruct s as [|c s]; auto. inversion V as [|? ? Vc V']; subst. destruct (digit_not_sign r c Vc) as [-> ->]. reflexivity. }
  rewrite E. rewrite load_unsigned by auto. cbn [bind].
  rewrite (set_sign_ofZ _ false) by auto. rewrite (set_sign_ofZ _ true) by auto. auto.
Qed.

(** *** Export *)
Lemma nth0_val l : digits l -> val l < B -> normal l -> nth 0 l 0 = val l.
Proof.
  intros D V N. destruct l as [|d [|e l]]; cbn [val nth] in *; try lia.
  exfalso. apply digits_cons in D as [Hd D]. pose proof D as D'. apply digits_cons in D' as [He D'].
  pose proof (val_nonneg l D'). destruct N as [N|N]; [discriminate|]. cbn [last] in N.
  assert (0 < e + B * val l).
  { destruct l as [|f l]; [cbn in *; lia|]. pose proof (normal_pos f l D' (or_intror N)) as P. pose proof B_pos.
    pose proof (Bn_pos (length l)). nia. }
  nia.
Qed.

Lemma store_digits_ok r : 2 <= r <= 16 -> forall f t, wf t -> val (dg t) < 2 ^ Z.of_nat f ->
  exists s, store_digits f (ofZ r) t = Ok s /\ Forall (valid_digit r) s /\ num_val r (rev s) = val (dg t) /\
    (0 < val (dg t) -> exists s' c, s = s' ++ [c] /\ char_val c <> 0).
Proof.
  intro Hr. assert (U : forall f t, store_digits f (ofZ r) t = if is_zero t then Ok [] else match f with O => Fuel | S f =>
      do ' (q, rem) <- div_abs t (ofZ r); do s <- store_digits f (ofZ r) q; Ok (raw_to_asc (nth 0 (dg rem) 0) :: s) end)
    by (intros [|f] t; reflexivity).
  induction f as [|f IH]; intros t W H; rewrite U; rewrite is_zero_val by auto.
  - change (Z.of_nat 0) with 0 in H. rewrite Z.pow_0_r in H. pose proof (val_nonneg _ (proj1 W)). replace (val (dg t)) with 0 by lia.
    exists []. repeat split; auto. lia.
  - pose proof (val_nonneg _ (proj1 W)) as P. destruct (Z.eqb_spec (val (dg t)) 0) as [E|N].
    { rewrite E. exists []. repeat split; auto. lia. }
    rewrite Nat2Z.inj_succ, Z.pow_succ_r in H by lia.
    destruct (div_abs_ok t (ofZ r)) as (q & rem & E & Wq & Wr & Vq & Vr & Nq & Nr); auto; [rewrite ofZ_val; lia|].
    rewrite ofZ_val, Z.abs_eq in Vq, Vr by lia. rewrite E. cbn [bind].
    pose proof (Z.mod_pos_bound (val (dg t)) r ltac:(lia)) as MB.
    pose proof (Z.div_mod (val (dg t)) r ltac:(lia)) as DM.
    destruct (IH q Wq) as (s & Es & Vs & Ns & Ls).
    { rewrite Vq. apply Z.div_lt_upper_bound; [lia|]. nia. }
    rewrite Es. cbn [bind]. rewrite nth0_val by (try apply Wr; unfold B; lia). rewrite Vr.
    destruct (raw_asc (val (dg t) mod r) r) as [CV VD]; try lia.
    eexists. split; [reflexivity|]. split; [constructor; auto|]. split; [cbn [rev]; rewrite num_snoc, Ns, CV, Vq; lia|].
    intros _. destruct (Z.eq_dec (val (dg q)) 0) as [Q0|QN].
    + assert (s = []).
      { rewrite U in Es. rewrite is_zero_val, Q0 in Es by auto. cbn in Es. congruence. }
      subst s. exists [], (raw_to_asc (val (dg t) mod r)). split; auto. rewrite CV. lia.
    + destruct Ls as (s' & c & -> & Hc); [pose proof (val_nonneg _ (proj1 Wq)); lia|].
      exists (raw_to_asc (val (dg t) mod r) :: s'), c. auto.
Qed.

Lemma nibbles b : byte b -> Z.land (Z.shiftr b 4) 15 = b / 16 /\ Z.land b 15 = b mod 16 /\ ((Z.land b 0xF0 =? 0) = (b / 16 =? 0)).
Proof.
  assert (F : forallb (fun b => (Z.land (Z.shiftr b 4) 15 =? b / 16) && (Z.land b 15 =? b mod 16) && Bool.eqb (Z.land b 0xF0 =? 0) (b / 16 =? 0))%bool (map Z.of_nat (seq 0 256)) = true) by (vm_compute; reflexivity).
  intro H. rewrite forallb_forall in F. specialize (F b). unfold byte in H.
  assert (I : In b (map Z.of_nat (seq 0 256))) by (apply in_map_iff; exists (Z.to_nat b); split; [lia|apply in_seq; lia]).
  specialize (F I). apply andb_prop in F as [F F3]. apply andb_prop in F as [F1 F2].
  apply Bool.eqb_prop in F3. split; [lia|]. split; [lia|auto].
Qed.

Definition hexc (b : Z) : list Z := [raw_to_asc (Z.land (Z.shiftr b 4) 15); raw_to_asc (Z.land b 15)].
Lemma hexc_ok s : bytes s -> Forall (valid_digit 16) (flat_map hexc s) /\ num_val 16 (flat_map hexc s) = be_val s /\
  length (flat_map hexc s) = (2 * length s)%nat.
Proof.
  induction 1 as [|b s Hb Hs (V & E & L)]; [repeat split; constructor|]. cbn [flat_map hexc app].
  destruct (nibbles b Hb) as (N1 & N2 & _). rewrite N1, N2. unfold byte in Hb.
  assert (0 <= b / 16 < 16) by (split; [apply Z.div_pos|apply Z.div_lt_upper_bound]; lia).
  pose proof (Z.mod_pos_bound b 16 ltac:(lia)). pose proof (Z.div_mod b 16 ltac:(lia)) as DM.
  destruct (raw_asc (b / 16) 16) as [C1 V1]; try lia. destruct (raw_asc (b mod 16) 16) as [C2 V2]; try lia.
  split; [constructor; auto|]. split; [|cbn [length]; lia].
  rewrite !num_cons, E, C1, C2, be_val_cons. cbn [length]. rewrite Nat2Z.inj_succ, Z.pow_succ_r, L by lia.
  rewrite Nat2Z.inj_mul. change (Z.of_nat 2) with 2. rewrite (Z.pow_mul_r 16) by lia. change (16 ^ 2) with 256.
  rewrite DM at 3. ring.
Qed.

Lemma store_str_hex_ok a : wf a -> mval a <> 0 ->
  exists s, store_str_hex a = Ok s /\ Forall (valid_digit 16) s /\ num_val 16 s = Z.abs (mval a) /\
    exists c s', s = c :: s' /\ char_val c <> 0.
Proof.
  intros W NZ. unfold store_str_hex. rewrite store_bin_ok by (auto; lia). cbn [bind].
  destruct (count_bytes_nonneg a W) as (P & U & M).
  pose proof (be_bytes_bytes (Z.to_nat (count_bytes a)) (Z.abs (mval a))) as BB.
  pose proof (be_val_bytes (Z.to_nat (count_bytes a)) (Z.abs (mval a))) as BV.
  pose proof (be_bytes_length (Z.to_nat (count_bytes a)) (Z.abs (mval a))) as BL.
  set (s := be_bytes _ _) in *. clearbody s. rewrite Z2Nat.id in BV by auto. rewrite Z.mod_small in BV by lia.
  fold hexc. change (fun b => [raw_to_asc (Z.land (Z.shiftr b 4) 15); raw_to_asc (Z.land b 15)]) with hexc.
  destruct (hexc_ok s BB) as (V & E & _). destruct s as [|b s]; [cbn in BV; lia|].
  cbn [nth]. inversion BB as [|? ? Hb Hs EQ]; subst.
  assert (B0 : b <> 0).
  { intros ->. rewrite be_val_cons, Z.mul_0_l, Z.add_0_l in BV. pose proof (be_val_bound s Hs) as SB.
    cbn [length] in BL. assert (count_bytes a <= Z.of_nat (length s)) by (apply M; [lia|rewrite <- BV; lia]). lia. }
  destruct (nibbles b Hb) as (N1 & N2 & N3). rewrite N3.
  assert (0 <= b / 16 < 16) by (unfold byte in Hb; split; [apply Z.div_pos|apply Z.div_lt_upper_bound]; lia).
  pose proof (Z.mod_pos_bound b 16 ltac:(lia)). pose proof (Z.div_mod b 16 ltac:(lia)) as DM.
  cbn [flat_map hexc app] in *. rewrite N1, N2 in *.
  destruct (raw_asc (b / 16) 16) as [C1 V1]; try lia. destruct (raw_asc (b mod 16) 16) as [C2 V2]; try lia.
  destruct (Z.eqb_spec (b / 16) 0) as [Z0|ZN].
  - cbn [tl]. eexists. split; [reflexivity|]. inversion V; subst. split; auto. split.
    + rewrite num_cons, C1, Z0 in E. lia.
    + eexists; eexists; split; [reflexivity|]. rewrite C2. lia.
  - eexists. split; [reflexivity|]. split; auto. split; [lia|]. eexists; eexists; split; [reflexivity|]. lia.
Qed.

Lemma store_str_ok a r : canon a -> 2 <= r <= 16 ->
  exists s, store_str a r = Ok ((if mval a <? 0 then [45] else []) ++ s) /\ Forall (valid_digit r) s /\
    num_val r s = Z.abs (mval a) /\ (mval a = 0 /\ s = [48] \/ exists c s', s = c :: s' /\ char_val c <> 0).
Proof.
  intros C Hr. unfold store_str. destruct (Z.ltb_spec r 2); [lia|]. destruct (Z.ltb_spec 16 r); [lia|]. cbn [orb].
  rewrite is_zero_val, <- abs_mval by auto. rewrite (canon_neg a C). destruct (Z.eqb_spec (Z.abs (mval a)) 0) as [E|N].
  - replace (mval a) with 0 by lia. exists [48]. cbn [app Z.ltb Z.compare]. split; auto.
    split; [constructor; [|constructor]; unfold valid_digit; rewrite char48; lia|]. split; [reflexivity|]. left; auto.
  - destruct (Z.eqb_spec r 16) as [->|N16].
    + destruct (store_str_hex_ok a) as (s & Es & V & E & F); [auto|lia|]. rewrite Es. cbn [bind].
      exists s. split; [destruct (mval a <? 0); reflexivity|]. auto.
    + rewrite set_int_ofZ by (change (2 ^ 63) with 9223372036854775808; lia). cbn [bind].
      destruct (store_digits_ok r Hr (Z.to_nat (count_bits a)) a) as (s & Es & V & E & F); auto.
      { rewrite (canon_is_ofZ a C). rewrite ofZ_val. rewrite Z2Nat.id by (rewrite count_bits_ofZ; destruct (_ =? 0); [lia|]; pose proof (Z.log2_nonneg (Z.abs (mval a))); lia).
        apply count_bits_le; [|lia]. rewrite count_bits_ofZ; destruct (_ =? 0); [lia|]; pose proof (Z.log2_nonneg (Z.abs (mval a))); lia. }
      rewrite Es. cbn [bind]. exists (rev s). split.
      { destruct (mval a <? 0); [rewrite rev_app_distr|]; reflexivity. }
      split; [apply Forall_forall; intros x Hx; apply in_rev in Hx; revert x Hx; apply Forall_forall; auto|].
      rewrite abs_mval by auto. split; auto. right. rewrite <- abs_mval in F by auto. destruct F as (s' & c & -> & Hc); [lia|].
      rewrite rev_app_distr. exists c, (rev s'). auto.
Qed.

Lemma str_roundtrip a r : canon a -> 2 <= r <= 16 -> exists s, store_str a r = Ok s /\ load_str r s = Ok a.
Proof.
  intros C Hr. destruct (store_str_ok a r C Hr) as (s & E & V & N & _). eexists. split; [exact E|].
  destruct (load_str_ok r s ltac:(lia) V) as (L1 & _ & L3). rewrite (canon_is_ofZ a C) at 2.
  destruct (Z.ltb_spec (mval a) 0); cbn [app]; [rewrite L3|rewrite L1]; rewrite N; do 2 f_equal; lia.
Qed.

Lemma store_hex_length a s : wf a -> store_str a 16 = Ok s -> Z.of_nat (length s) + 1 <= print_bufsiz a.
Proof.
  intros W E. unfold store_str in E. cbn [Z.ltb Z.compare orb] in E. change (16 <? 2) with false in E. change (16 <? 16) with false in E.
  cbn [orb] in E. unfold print_bufsiz. destruct (count_bytes_nonneg a W) as (P & _ & _).
  destruct (is_zero a); [injection E as <-; cbn [length]; lia|]. change (16 =? 16) with true in E. cbv iota in E.
  unfold store_str_hex in E. rewrite store_bin_ok in E by (auto; lia). cbn [bind] in E.
  change (fun b => [raw_to_asc (Z.land (Z.shiftr b 4) 15); raw_to_asc (Z.land b 15)]) with hexc in E.
  pose proof (be_bytes_bytes (Z.to_nat (count_bytes a)) (Z.abs (mval a))) as BB.
  pose proof (be_bytes_length (Z.to_nat (count_bytes a)) (Z.abs (mval a))) as BL.
  set (l := be_bytes _ _) in *. clearbody l. destruct (hexc_ok l BB) as (_ & _ & L).
  set (t := if Z.land (nth 0 l 0) 0xF0 =? 0 then tl (flat_map hexc l) else flat_map hexc l) in *.
  assert (Z.of_nat (length t) <= 2 * count_bytes a).
  { subst t. destruct (_ =? 0); [destruct (flat_map hexc l); cbn [tl length] in *; lia|lia]. }
  clearbody t. injection E as <-. destruct (neg a); cbn [length]; lia.
Qed.
