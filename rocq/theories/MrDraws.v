(** How many draws of the generator make the primality test accept a composite
    number. *)
From Coq Require Import Znumtheory.
From Verif Require Import Base Bits BytesSpec Bytes Fermat NumTh MpiModel MpiSpec MpiDigits MpiMulModel MpiMul MpiMul2 MpiSqr MpiCanon MpiDivModel MpiDiv MpiAlgModel MpiAlg MpiAlg2 MpiIOModel MpiIO MpiTextSpec MpiRand MrBound EcPk.

Ltac Zify.zify_post_hook ::= idtac.

(** *** The exact value of a random number *)
Lemma top_value d k : 0 <= d < B -> 0 < k <= 64 ->
  Z.lor (if k <? 64 then Z.land d (Z.shiftl 1 k - 1) else d) (Z.shiftl 1 (k - 1)) = 2 ^ (k - 1) + d mod 2 ^ (k - 1).
Proof.
  intros Hd Hk. rewrite !Z.shiftl_mul_pow2, !Z.mul_1_l by lia.
  set (e := if k <? 64 then _ else _). assert (E : e = d mod 2 ^ k).
  { subst e. destruct (Z.ltb_spec k 64).
    - change (2 ^ k - 1) with (Z.pred (2 ^ k)). rewrite <- Z.ones_equiv, Z.land_ones by lia. reflexivity.
    - replace k with 64 by lia. symmetry. apply Z.mod_small. exact Hd. }
  clearbody e. subst e.
  assert (D : Z.land (2 ^ (k - 1)) (d mod 2 ^ (k - 1)) = 0).
  { apply Z.bits_inj'. intros i Hi. rewrite Z.land_spec, Z.bits_0, Z.pow2_bits_eqb by lia.
    destruct (Z.eqb_spec (k - 1) i); [|reflexivity]. subst i. rewrite Z.mod_pow2_bits_high by lia. reflexivity. }
  rewrite (Z.add_nocarry_lxor _ _ D), (Z.lxor_lor _ _ D).
  apply Z.bits_inj'. intros i Hi. rewrite !Z.lor_spec, Z.pow2_bits_eqb by lia.
  destruct (Z.eqb_spec (k - 1) i); [rewrite Bool.orb_true_r; reflexivity|]. rewrite Bool.orb_false_r. cbn [orb].
  destruct (Z_lt_le_dec i (k - 1)).
  - rewrite !Z.mod_pow2_bits_low by lia. reflexivity.
  - rewrite !Z.mod_pow2_bits_high by lia. reflexivity.
Qed.

Definition drawn (bits v : Z) : Z :=
  if B ^ (Z.of_nat (ndigs bits) - 1) <=? v then 2 ^ (bits - 1) + v mod 2 ^ (bits - 1) else v.

Lemma rand_value alloc bits bin r : 0 < bits -> bytes bin -> Z.of_nat (length bin) = (bits + 7) / 8 ->
  rand false alloc bits bin = Ok r -> r = ofZ (drawn bits (be_val bin)).
Proof.
  intros Hb HB L E. destruct (ndigs_ok bits Hb) as [D0 D1]. unfold rand in E.
  destruct (Z.eqb_spec bits 0); [lia|]. fold (ndigs bits) in E. cbv zeta in E. unfold drawn. set (digs := ndigs bits) in *. clearbody digs.
  destruct (load_bin_ok false bin HB) as (W & V & N). replace (if be_val bin =? 0 then false else false) with false in N by (destruct (be_val bin =? 0); reflexivity).
  rewrite load_bin_ofZ in * by auto. pose proof (be_val_bound bin HB) as BB. set (v := be_val bin) in *.
  assert (US : (used (ofZ v) <= digs)%nat).
  { apply wf_len_le; auto. rewrite V.
    eapply Z.lt_le_trans; [apply BB|]. rewrite B_pow by lia. change 256 with (2 ^ 8). rewrite <- Z.pow_mul_r by lia.
    apply Z.pow_le_mono_r; [lia|]. rewrite L. pose proof (Z.mul_div_le (bits + 7) 8 ltac:(lia)).
    assert ((bits + 7) / 8 < 8 * Z.of_nat digs + 1); [|lia]. apply Z.div_lt_upper_bound; lia. }
  destruct (Nat.leb_spec digs (used (ofZ v))) as [G|G].
  - assert (U : used (ofZ v) = digs) by lia.
    assert (V0 : 0 < v). { destruct (Z.eq_dec v 0) as [E0|]; [|lia]. rewrite E0 in U. cbn in U. lia. }
    destruct (used_bounds v V0) as [_ UB]. rewrite U in UB.
    destruct (Z.leb_spec (B ^ (Z.of_nat digs - 1)) v) as [LV|LV]; [|exfalso; replace (Z.of_nat (digs - 1)) with (Z.of_nat digs - 1) in UB by lia; lia].
    apply (f_equal (fun y => match y with Ok z => z | _ => r end)) in E. cbv beta iota in E. rewrite <- E. clear E r. set (msb := bits - 64 * (Z.of_nat digs - 1)).
    assert (Hm : 0 < msb <= 64) by (subst msb; lia). destruct W as [D NM]. unfold used in U.
    destruct (exists_last (l := dg (ofZ v))) as (l & x & El); [intro El; rewrite El in U; cbn in U; lia|].
    rewrite El in *. rewrite app_length in U. cbn [length] in U. replace (digs - 1)%nat with (length l) by lia.
    rewrite app_nth2, Nat.sub_diag by lia. cbn [nth]. rewrite upd_snoc. apply digits_app in D as [Dl Dx].
    apply digits_cons in Dx as [Dx _]. rewrite top_value by auto.
    assert (P1 : 0 < 2 ^ (msb - 1)) by (apply pow2_pos; lia).
    pose proof (Z.mod_pos_bound x (2 ^ (msb - 1)) P1) as MB.
    assert (P2 : 2 * 2 ^ (msb - 1) <= B) by (rewrite <- Z.pow_succ_r by lia; change B with (2 ^ 64); apply Z.pow_le_mono_r; lia).
    apply is_ofZ.
    + apply wf_canon; [|exact N]. split; cbn [dg].
      * apply digits_app. split; auto. apply digits_cons. split; [lia|]. constructor.
      * right. rewrite last_last. lia.
    + unfold mval. cbn [neg dg]. rewrite N.
      rewrite val_app in *. cbn [val] in *. pose proof (val_nonneg l Dl) as P. pose proof (val_lt l Dl) as Q.
      replace (Z.of_nat (length l)) with (Z.of_nat digs - 1) in * by lia.
      rewrite B_pow in * by lia. set (X := 2 ^ (64 * (Z.of_nat digs - 1))) in *.
      assert (EX : 2 ^ (bits - 1) = X * 2 ^ (msb - 1)) by (subst X msb; rewrite <- Z.pow_add_r by lia; f_equal; lia).
      assert (0 < X) by (subst X; apply pow2_pos; lia). clearbody X. set (M := 2 ^ (msb - 1)) in *. clearbody M.
      assert (EM : v mod (X * M) = val l + X * (x mod M)); [|rewrite EX, EM; ring].
      symmetry. apply (Z.mod_unique v (X * M) (x / M)).
      * left. split; [nia|]. clear - P Q MB H P1. nia.
      * rewrite <- V. pose proof (Z.div_mod x M ltac:(lia)) as DM. rewrite DM at 1. ring.
  - pose proof (val_lt (dg (ofZ v)) (proj1 W)) as VL. fold (used (ofZ v)) in VL. rewrite V in VL.
    assert (S1 : v < B ^ (Z.of_nat digs - 1)).
    { eapply Z.lt_le_trans; [apply VL|]. apply Z.pow_le_mono_r; [apply B_pos|lia]. }
    destruct (_ <=? _)%nat in E; [|discriminate]. injection E as <-.
    destruct (Z.leb_spec (B ^ (Z.of_nat digs - 1)) v); [lia|]. reflexivity.
Qed.

Lemma drawn_bound bits v : 0 < bits -> 0 <= v -> 0 <= drawn bits v < 2 ^ bits /\ (B ^ (Z.of_nat (ndigs bits) - 1) <= v -> 2 ^ (bits - 1) <= drawn bits v).
Proof.
  intros Hb Hv. unfold drawn. destruct (ndigs_ok bits Hb) as [D0 D1]. pose proof (pow2_pos (bits - 1) ltac:(lia)).
  pose proof (Z.mod_pos_bound v (2 ^ (bits - 1)) ltac:(lia)).
  assert (2 ^ bits = 2 * 2 ^ (bits - 1)) by (rewrite <- Z.pow_succ_r by lia; f_equal; lia).
  destruct (Z.leb_spec (B ^ (Z.of_nat (ndigs bits) - 1)) v); [lia|]. rewrite B_pow in * by lia.
  assert (2 ^ (64 * (Z.of_nat (ndigs bits) - 1)) <= 2 ^ (bits - 1)) by (apply Z.pow_le_mono_r; lia). lia.
Qed.

Definition base_of (n v : Z) : Z := drawn (Z.log2 n + 1) v mod n.

Lemma rand_range_value alloc n bin a : 0 < n -> draw_for n bin -> rand_range false alloc (ofZ n) bin = Ok a ->
  a = ofZ (base_of n (be_val bin)).
Proof.
  intros Hn [HB L] E. unfold rand_range in E. pose proof (Z.log2_nonneg n).
  assert (C : count_bits (ofZ n) = Z.log2 n + 1).
  { rewrite count_bits_ofZ. destruct (Z.eqb_spec n 0); [lia|]. rewrite Z.abs_eq by lia. reflexivity. }
  rewrite C in E. destruct (rand false alloc (Z.log2 n + 1) bin) as [r| | |] eqn:R; try discriminate. cbn [bind] in E.
  apply rand_value in R; auto; [|lia|rewrite L; f_equal; lia]. subst r. rewrite cmp_abs_ofZ in E.
  pose proof (be_val_bound bin HB) as BB. destruct (drawn_bound (Z.log2 n + 1) (be_val bin) ltac:(lia) (proj1 BB)) as [DB _].
  unfold base_of. set (v := drawn _ _) in *. clearbody v. destruct (Z.leb_spec 0 (Z.sgn (Z.abs v - Z.abs n))).
  - rewrite mod_ofZ in E by auto. congruence.
  - rewrite Z.mod_small by lia. congruence.
Qed.

(** *** Counting *)
Lemma classes {A K} (dec : forall x y : K, {x = y} + {x <> y}) (c : A -> K) (M : nat) (hs : list K) : forall l : list A,
  (forall x, In x l -> In (c x) hs) ->
  (forall h, In h hs -> (length (filter (fun x => if dec (c x) h then true else false) l) <= M)%nat) ->
  (length l <= length hs * M)%nat.
Proof.
  induction hs as [|h hs IH]; intros l H C.
  - destruct l as [|x l]; [reflexivity|]. destruct (H x). left; auto.
  - set (f := fun x => if dec (c x) h then true else false).
    assert (P : length l = (length (filter f l) + length (filter (fun x => negb (f x)) l))%nat).
    { clear. induction l as [|x l IH]; [reflexivity|]. cbn [filter length]. destruct (f x); cbn [negb length]; lia. }
    assert (length (filter f l) <= M)%nat by (apply C; left; auto).
    assert (length (filter (fun x => negb (f x)) l) <= length hs * M)%nat; [|cbn [length]; lia].
    apply IH.
    + intros x Hx. apply filter_In in Hx as [Hx Nx]. destruct (H x Hx) as [E|]; auto.
      unfold f in Nx. destruct (dec (c x) h); [discriminate|congruence].
    + intros k Hk. eapply Nat.le_trans; [|apply (C k); right; auto]. clear.
      induction l as [|x l IH]; [reflexivity|]. cbn [filter]. destruct (negb (f x)); cbn [filter]; destruct (dec (c x) k); cbn [length]; lia.
Qed.

Definition below (m : Z) : list Z := map Z.of_nat (seq 0 (Z.to_nat m)).
Lemma below_in m x : In x (below m) <-> 0 <= x < m.
Proof.
  unfold below. rewrite in_map_iff. split.
  - intros (k & <- & Hk). apply in_seq in Hk. lia.
  - intro H. exists (Z.to_nat x). split; [lia|]. apply in_seq. lia.
Qed.
Lemma below_length m : length (below m) = Z.to_nat m.
Proof. unfold below. rewrite map_length, seq_length. reflexivity. Qed.

Lemma nodup_below m l : 0 <= m -> NoDup l -> (forall x, In x l -> 0 <= x < m) -> Z.of_nat (length l) <= m.
Proof.
  intros Hm N H. assert (length l <= length (below m))%nat by (apply NoDup_incl_length; auto; intros x Hx; apply below_in; auto).
  rewrite below_length in *. lia.
Qed.

Lemma product_count {A} (dec : forall x y : A, {x = y} + {x <> y}) (P : A -> Prop) M :
  (forall l, NoDup l -> (forall x, In x l -> P x) -> (length l <= M)%nat) ->
  forall k (ts : list (list A)), NoDup ts -> (forall t, In t ts -> length t = k /\ Forall P t) -> (length ts <= M ^ k)%nat.
Proof.
  intro HM. induction k as [|k IH]; intros ts N H.
  - destruct ts as [|a [|b ts]]; cbn; try lia. exfalso.
    destruct (H a) as [La _]; [left; auto|]. destruct (H b) as [Lb _]; [right; left; auto|].
    destruct a; [|discriminate]. destruct b; [|discriminate]. inversion N as [|? ? N1]. apply N1. left; auto.
  - destruct ts as [|t0 ts0] eqn:ET; [cbn; lia|]. rewrite <- ET in *.
    assert (exists d0 : A, True) as [d0 _].
    { destruct (H t0) as [L _]; [rewrite ET; left; auto|]. destruct t0 as [|d ?]; [discriminate|exists d; auto]. }
    clear t0 ts0 ET. set (c := fun t : list A => hd d0 t). set (hs := nodup dec (map c ts)).
    assert (HL : (length hs <= M)%nat).
    { apply HM; [apply NoDup_nodup|]. intros x Hx. apply nodup_In, in_map_iff in Hx as (t & <- & Ht).
      destruct (H t Ht) as [L F]. destruct t as [|y t]; [discriminate|]. inversion F; auto. }
    apply Nat.le_trans with (length hs * M ^ k)%nat; [|cbn [Nat.pow]; apply Nat.mul_le_mono_r; auto].
    apply (classes dec c).
    + intros t Ht. apply nodup_In, in_map, Ht.
    + intros h _. set (us := filter _ ts). rewrite <- (map_length (@tl A) us). apply IH.
      * apply NoDup_map_in; [|apply NoDup_filter; auto]. intros x y Hx Hy E.
        apply filter_In in Hx as [Hx Cx], Hy as [Hy Cy]. destruct (H x Hx) as [Lx _], (H y Hy) as [Ly _].
        unfold c in Cx, Cy. destruct x as [|a x]; [discriminate|]. destruct y as [|b y]; [discriminate|]. cbn [hd tl] in *.
        destruct (dec a h); [|discriminate]. destruct (dec b h); [|discriminate]. congruence.
      * intros t Ht. apply in_map_iff in Ht as (s & <- & Hs). apply filter_In in Hs as [Hs _]. destruct (H s Hs) as [L F].
        destruct s as [|a s]; [discriminate|]. cbn [tl]. inversion F; subst. split; auto.
Qed.

(** *** One round *)
Lemma passes_base n bin : 1 < n -> draw_for n bin -> passes_mr (ofZ n) bin = Ok true ->
  miller_rabin n (base_of n (be_val bin)).
Proof.
  intros Hn HD H. destruct (rand_range false 8 (ofZ n) bin) as [a| | |] eqn:E.
  2-4: exfalso; destruct (calc_ok n Hn) as (k & o & Ec & _); unfold passes_mr in H; rewrite Ec in H; cbn [bind] in H; rewrite E in H; cbn in H; discriminate.
  destruct (passes_ok n bin a Hn HD E) as (r & Er & S & _). rewrite Er in H. injection H as ->.
  apply rand_range_value in E; auto; [|lia]. subst a. rewrite mval_ofZ in S. auto.
Qed.

Lemma base_inj n u v : 1 < n -> let K := 2 ^ Z.log2 n in let T := B ^ (Z.of_nat (ndigs (Z.log2 n + 1)) - 1) in
  T <= u -> T <= v -> u / K = v / K -> base_of n u = base_of n v -> u = v.
Proof.
  intros Hn K T Hu Hv Q E. unfold base_of, drawn in E. fold T in E.
  destruct (Z.leb_spec T u); [|lia]. destruct (Z.leb_spec T v); [|lia].
  replace (Z.log2 n + 1 - 1) with (Z.log2 n) in E by lia. fold K in E.
  pose proof (Z.log2_spec n ltac:(lia)) as L. rewrite Z.pow_succ_r in L by apply Z.log2_nonneg. fold K in L.
  assert (KP : 0 < K) by (apply pow2_pos, Z.log2_nonneg).
  pose proof (Z.div_mod u K ltac:(lia)) as Du. pose proof (Z.div_mod v K ltac:(lia)) as Dv.
  pose proof (Z.mod_pos_bound u K KP) as Bu. pose proof (Z.mod_pos_bound v K KP) as Bv.
  assert (EM : u mod K = v mod K); [|congruence]. clear Du Dv Q. set (x := u mod K) in *. set (y := v mod K) in *. clearbody x y K.
  pose proof (divide_mod_eq) as _. assert (D : (n | (K + x) - (K + y))).
  { exists ((K + x) / n - (K + y) / n). pose proof (Z.div_mod (K + x) n ltac:(lia)). pose proof (Z.div_mod (K + y) n ltac:(lia)).
    rewrite Z.mul_sub_distr_r. lia. }
  destruct D as [k D]. assert (k = 0) by nia. subst k. lia.
Qed.

Lemma draws_len n : 1 < n -> let N := 8 * ((Z.log2 n + 8) / 8) in
  0 < (Z.log2 n + 8) / 8 /\ Z.log2 n + 1 <= N /\ 64 * (Z.of_nat (ndigs (Z.log2 n + 1)) - 1) <= N - 8.
Proof.
  intros Hn N. pose proof (Z.log2_nonneg n). destruct (ndigs_ok (Z.log2 n + 1) ltac:(lia)) as [D0 D1].
  set (d := ndigs _) in *. clearbody d. pose proof (Z.div_mod (Z.log2 n + 8) 8 ltac:(lia)). pose proof (Z.mod_pos_bound (Z.log2 n + 8) 8 ltac:(lia)).
  subst N. lia.
Qed.

Theorem round_count n ds : 1 < n -> Z.odd n = true -> ~ (3 | n) -> ~ prime n -> NoDup ds ->
  (forall d, In d ds -> draw_for n d /\ passes_mr (ofZ n) d = Ok true) ->
  256 * Z.of_nat (length ds) <= 129 * 256 ^ ((Z.log2 n + 8) / 8).
Proof.
  intros Hn Ho H3 Hp ND H. destruct (draws_len n Hn) as (L0 & L1 & L2). pose proof (Z.log2_nonneg n) as LG.
  set (len := (Z.log2 n + 8) / 8) in *. set (T := B ^ (Z.of_nat (ndigs (Z.log2 n + 1)) - 1)).
  destruct (ndigs_ok (Z.log2 n + 1) ltac:(lia)) as [G0 G1].
  set (vs := map be_val ds).
  assert (NV : NoDup vs).
  { apply NoDup_map_in; auto. intros x y Hx Hy E. destruct (H x Hx) as [[Bx Lx] _], (H y Hy) as [[By Ly] _]. apply be_val_inj; auto. lia. }
  assert (HV : forall v, In v vs -> 0 <= v < 256 ^ len /\ miller_rabin n (base_of n v)).
  { intros v Hv. apply in_map_iff in Hv as (d & <- & Hd). destruct (H d Hd) as [Dd P]. split.
    - destruct Dd as [Bd Ld]. pose proof (be_val_bound d Bd) as BB. rewrite Ld in BB. exact BB.
    - apply passes_base; auto. }
  replace (length ds) with (length vs) by (apply map_length). clearbody vs. clear ds ND H.
  assert (P : length vs = (length (filter (fun v => (v <? T)%Z) vs) + length (filter (fun v => negb (v <? T)%Z) vs))%nat).
  { clear. induction vs as [|x l IH]; [reflexivity|]. cbn [filter length]. destruct (x <? T)%Z; cbn [negb length]; lia. }
  assert (E256 : 256 ^ len = 2 ^ (8 * len)) by (change 256 with (2 ^ 8); rewrite <- Z.pow_mul_r by lia; reflexivity).
  rewrite E256 in *. set (N := 8 * len) in *.
  set (K := 2 ^ Z.log2 n). assert (KP : 0 < K) by (apply pow2_pos; lia).
  set (H8 := 2 ^ (N - Z.log2 n)). assert (HP : 0 < H8) by (apply pow2_pos; lia).
  assert (HK : 2 ^ N = H8 * K) by (unfold H8, K; rewrite <- Z.pow_add_r by lia; f_equal; lia).
  assert (A1 : Z.of_nat (length (filter (fun v => (v <? T)%Z) vs)) <= 2 ^ (N - 8)).
  { apply nodup_below; [apply Z.pow_nonneg; lia|apply NoDup_filter; auto|]. intros x Hx. apply filter_In in Hx as [Hx Lx].
    destruct (HV x Hx). split; [lia|]. apply Z.lt_le_trans with T; [lia|]. unfold T. rewrite B_pow by lia. apply Z.pow_le_mono_r; lia. }
  assert (A2 : (length (filter (fun v => negb (v <? T)%Z) vs) <= length (below H8) * Z.to_nat ((n - 1) / 4))%nat).
  { apply (classes Z.eq_dec (fun v => v / K)).
    - intros x Hx. apply filter_In in Hx as [Hx _]. destruct (HV x Hx) as [Bx _]. apply below_in. split; [apply Z.div_pos; lia|].
      apply Z.div_lt_upper_bound; lia.
    - intros h _. set (us := filter _ (filter _ vs)).
      assert (U : forall u, In u us -> T <= u /\ u / K = h /\ In u vs).
      { intros u Hu. apply filter_In in Hu as [Hu C]. apply filter_In in Hu as [Hu C2]. destruct (Z.eq_dec (u / K) h); [|discriminate].
        apply Bool.negb_true_iff, Z.ltb_ge in C2. auto. }
      assert (NU : NoDup us) by (apply NoDup_filter, NoDup_filter; auto). clearbody us.
      assert (Q : 4 * Z.of_nat (length (map (base_of n) us)) <= n - 1).
      { apply mr_bound; auto.
        - apply NoDup_map_in; auto. intros x y Hx Hy E. destruct (U x Hx) as (X1 & X2 & _), (U y Hy) as (Y1 & Y2 & _).
          apply (base_inj n); auto. fold K. congruence.
        - intros a Ha. apply in_map_iff in Ha as (u & <- & Hu). destruct (U u Hu) as (_ & _ & V). destruct (HV u V) as [_ M]. split; auto.
          apply Z.mod_pos_bound. lia. }
      rewrite map_length in Q. assert (Z.of_nat (length us) <= (n - 1) / 4) by (apply Z.div_le_lower_bound; lia). lia. }
  rewrite below_length in A2.
  assert (A3 : 4 * Z.of_nat (length (filter (fun v => negb (v <? T)%Z) vs)) <= H8 * (n - 1)).
  { apply Nat2Z.inj_le in A2. rewrite Nat2Z.inj_mul, !Z2Nat.id in A2 by (try (apply Z.div_pos); lia).
    pose proof (Z.mul_div_le (n - 1) 4 ltac:(lia)). clear - A2 H HP. nia. }
  pose proof (Z.log2_spec n ltac:(lia)) as L. rewrite Z.pow_succ_r in L by lia. fold K in L.
  assert (A4 : H8 * (n - 1) <= 2 * 2 ^ N) by (rewrite HK; clear - L HP; nia).
  assert (E8 : 2 ^ N = 256 * 2 ^ (N - 8)) by (change 256 with (2 ^ 8); rewrite <- Z.pow_add_r by lia; f_equal; lia).
  clear - P A1 A3 A4 E8. lia.
Qed.

(** *** The whole test *)
Lemma small_primes_prime q : In q small_primes -> prime q.
Proof.
  assert (F : forallb (fun q => (1 <? q) && (q <? 1024) && forallb (fun i => negb (q mod Z.of_nat i =? 0) || (q <? Z.of_nat (i * i)))%bool (seq 2 30))%bool small_primes = true) by (vm_compute; reflexivity).
  rewrite forallb_forall in F. intro H. specialize (F q H). apply andb_prop in F as [F1 F2]. apply andb_prop in F1 as [F1 F3].
  apply Z.ltb_lt in F1, F3. rewrite forallb_forall in F2. apply prime_by_divisors; [exact F1|]. intros r R D. pose proof (prime_ge_2 r R).
  destruct (Z_lt_le_dec q (r * r)) as [|LE]; [assumption|]. exfalso.
  assert (r < 32) by nia. specialize (F2 (Z.to_nat r)). rewrite Nat2Z.inj_mul, Z2Nat.id in F2 by lia.
  apply Bool.orb_prop in F2 as [F2|F2].
  - apply Bool.negb_true_iff, Z.eqb_neq in F2. apply F2, Z.mod_divide; [lia|exact D].
  - apply Z.ltb_lt in F2. lia.
  - apply in_seq. lia.
Qed.

Lemma mr_rounds_all p ds : mr_rounds p ds = Ok true -> forall d, In d ds -> passes_mr p d = Ok true.
Proof.
  induction ds as [|d ds IH]; intros H d' []; subst; cbn [mr_rounds] in H.
  - destruct (passes_mr p d') as [[|]| | |]; cbn [bind] in H; congruence.
  - apply IH; auto. destruct (passes_mr p d) as [[|]| | |]; cbn [bind] in H; try discriminate; auto.
Qed.

Lemma is_prime_composite n d1 d2 d3 d4 d5 : 1 < n -> ~ prime n -> is_prime (ofZ n) d1 d2 d3 d4 d5 = Ok true ->
  ~ (3 | n) /\ forall d, In d [d1; d2; d3; d4; d5] -> passes_mr (ofZ n) d = Ok true.
Proof.
  intros Hn NP T. unfold is_prime in T. destruct (obviously_ok n small_primes) as (r & E & R); [lia| |].
  { eapply Forall_impl; [|apply small_primes_range]. cbn; intros; lia. }
  rewrite E in T. cbn [bind] in T. destruct R as [[-> I]|[[-> (q & I & D & N)]|[-> F]]]; [|discriminate|].
  - exfalso. apply NP, small_primes_prime, I.
  - split; [apply F; left; reflexivity|]. apply mr_rounds_all. exact T.
Qed.

Theorem test_count n ts : 1 < n -> Z.odd n = true -> ~ prime n -> NoDup ts ->
  (forall t, In t ts -> exists d1 d2 d3 d4 d5, t = [d1; d2; d3; d4; d5] /\ Forall (draw_for n) t /\
     is_prime (ofZ n) d1 d2 d3 d4 d5 = Ok true) ->
  256 ^ 5 * Z.of_nat (length ts) <= 129 ^ 5 * (256 ^ ((Z.log2 n + 8) / 8)) ^ 5.
Proof.
  intros Hn Ho NP ND H. destruct (draws_len n Hn) as (L0 & _ & _). set (len := (Z.log2 n + 8) / 8) in *.
  assert (PL : 0 < 256 ^ (len - 1)) by (apply Z.pow_pos_nonneg; lia).
  assert (EL : 256 ^ len = 256 * 256 ^ (len - 1)) by (rewrite <- Z.pow_succ_r by lia; f_equal; lia).
  destruct ts as [|t0 ts0] eqn:ET; [cbn [length]; rewrite EL; lia|]. rewrite <- ET in *.
  assert (N3 : ~ (3 | n)).
  { destruct (H t0) as (d1 & d2 & d3 & d4 & d5 & _ & _ & T); [rewrite ET; left; auto|]. apply (is_prime_composite _ _ _ _ _ _ Hn NP T). }
  clear t0 ts0 ET.
  assert (Q : (length ts <= Z.to_nat (129 * 256 ^ (len - 1)) ^ 5)%nat).
  { apply (product_count (list_eq_dec Z.eq_dec) (fun d => draw_for n d /\ passes_mr (ofZ n) d = Ok true)); auto.
    - intros l Nl Hl. pose proof (round_count n l Hn Ho N3 NP Nl Hl) as R. fold len in R. rewrite EL in R. lia.
    - intros t Ht. destruct (H t Ht) as (d1 & d2 & d3 & d4 & d5 & -> & F & T). split; [reflexivity|].
      destruct (is_prime_composite _ _ _ _ _ _ Hn NP T) as [_ A]. rewrite Forall_forall in *. intros d Hd. split; auto. }
  apply Nat2Z.inj_le in Q. rewrite Nat2Z.inj_pow, Z2Nat.id in Q by lia. change (Z.of_nat 5) with 5 in Q.
  rewrite EL. rewrite !Z.pow_mul_l in *. lia.
Qed.
