(** Proofs about Diffie-Hellman, ElGamal and DSA. *)
From Coq Require Import Znumtheory.
From Verif Require Import Base Lists BytesSpec Bytes MpiModel MpiMulModel MpiDivModel MpiAlgModel MpiIOModel MpiSpec MpiDigits MpiCanon MpiDiv MpiAlg MpiAlg2 MpiIO MpiTextSpec MpiRand PkModel PkSpec NumTh.

Ltac Zify.zify_post_hook ::= idtac.

Lemma cb_le x y : 0 <= x <= y -> count_bytes (ofZ x) <= count_bytes (ofZ y).
Proof.
  intro H. destruct (canon_ofZ x) as [Wx _]. destruct (canon_ofZ y) as [Wy _].
  destruct (count_bytes_nonneg (ofZ x) Wx) as (A & _ & M). destruct (count_bytes_nonneg (ofZ y) Wy) as (A' & L & _).
  apply M; auto. destruct (ofZ_ok x) as [_ ->]. destruct (ofZ_ok y) as [_ E]. rewrite E in L. lia.
Qed.
Lemma store_ofZ x len : 0 <= x -> count_bytes (ofZ x) <= len -> store_bin (ofZ x) len true = Ok (be_bytes (Z.to_nat len) x).
Proof.
  intros H L. destruct (canon_ofZ x) as [W _]. rewrite (store_bin_ok _ len true W L). destruct (ofZ_ok x) as [_ ->]. rewrite Z.abs_eq by lia. reflexivity.
Qed.
Lemma cb_nonneg x : 0 <= count_bytes (ofZ x).
Proof. destruct (canon_ofZ x) as [W _]. apply (count_bytes_nonneg _ W). Qed.
Lemma cb_bound x : 0 <= x -> x < 256 ^ count_bytes (ofZ x).
Proof. intro H. destruct (canon_ofZ x) as [W _]. destruct (count_bytes_nonneg _ W) as (_ & L & _). destruct (ofZ_ok x) as [_ E]. rewrite E in L. lia. Qed.
Lemma be_val_store x len : 0 <= x -> count_bytes (ofZ x) <= len -> be_val (be_bytes (Z.to_nat len) x) = x.
Proof.
  intros H L. rewrite be_val_bytes. pose proof (cb_nonneg x). pose proof (cb_bound x H).
  rewrite Z2Nat.id by lia. apply Z.mod_small. split; [lia|]. eapply Z.lt_le_trans; [eassumption|]. apply Z.pow_le_mono_r; lia.
Qed.
Lemma neg_ofZ x : 0 <= x -> neg (ofZ x) = false.
Proof. intro. cbn [neg ofZ]. apply Z.ltb_ge. auto. Qed.
Lemma mone_ofZ : mone = ofZ 1.
Proof. reflexivity. Qed.
Lemma load_ofZ x l : 0 <= x -> bytes l -> load_bin (neg (ofZ x)) l = ofZ (be_val l).
Proof. intros. rewrite neg_ofZ by auto. apply load_bin_ofZ; auto. Qed.

(** * Diffie-Hellman *)
Theorem dh_ok p g a b Y1 Z1 Y2 Z2 len : 1 < p -> 0 <= a -> 0 <= b -> count_bytes (ofZ p) <= len ->
  dh_exchange {| dh_p := ofZ p; dh_g := ofZ g; dh_e := ofZ a; dh_Y := Y1; dh_Z := Z1 |}
              {| dh_p := ofZ p; dh_g := ofZ g; dh_e := ofZ b; dh_Y := Y2; dh_Z := Z2 |} len
  = Ok (be_bytes (Z.to_nat len) (g ^ (a * b) mod p), be_bytes (Z.to_nat len) (g ^ (a * b) mod p)).
Proof.
  intros Hp Ha Hb L. unfold dh_exchange, dh_agree. cbn [dh_p dh_g dh_e dh_Y dh_Z].
  rewrite (mod_exp_ofZ g a p Ha Hp), (mod_exp_ofZ g b p Hb Hp). cbn [bind].
  unfold dh_get_tok. cbn [dh_p dh_g dh_e dh_Y dh_Z].
  assert (S : forall x, 0 <= x < p -> count_bytes (ofZ x) <= len) by (intros x Hx; pose proof (cb_le x p ltac:(lia)); lia).
  pose proof (Z.mod_pos_bound (g ^ a) p ltac:(lia)) as BA. pose proof (Z.mod_pos_bound (g ^ b) p ltac:(lia)) as BB.
  rewrite (store_ofZ _ len (proj1 BA) (S _ BA)), (store_ofZ _ len (proj1 BB) (S _ BB)). cbn [bind].
  unfold dh_set_tok, dh_finalize. cbn [dh_p dh_g dh_e dh_Y dh_Z].
  rewrite (load_ofZ _ _ (proj1 BA)), (load_ofZ _ _ (proj1 BB)) by apply be_bytes_bytes.
  rewrite (be_val_store _ len (proj1 BA) (S _ BA)), (be_val_store _ len (proj1 BB) (S _ BB)).
  rewrite (mod_exp_ofZ _ a p Ha Hp), (mod_exp_ofZ _ b p Hb Hp). cbn [bind].
  unfold dh_get_sec. cbn [dh_Z].
  assert (E1 : (g ^ b mod p) ^ a mod p = g ^ (a * b) mod p).
  { rewrite pow_mod, <- Z.pow_mul_r, Z.mul_comm by lia. reflexivity. }
  assert (E2 : (g ^ a mod p) ^ b mod p = g ^ (a * b) mod p).
  { rewrite pow_mod, <- Z.pow_mul_r by lia. reflexivity. }
  rewrite E1, E2. pose proof (Z.mod_pos_bound (g ^ (a * b)) p ltac:(lia)) as BC. rewrite (store_ofZ _ len (proj1 BC) (S _ BC)). reflexivity.
Qed.

(** * ElGamal *)
Definition eg_draw (t : Z) (d : nat * list Z) : Prop := draw_for t (snd d).
Lemma eg_secret_range jx jy t : 0 < t -> forall draws iter k, Forall (eg_draw t) draws -> eg_secret iter jx jy (ofZ t) draws = Ok k ->
  exists v, k = ofZ v /\ 0 <= v < t.
Proof.
  intros Ht. induction draws as [|[al bin] rest IH]; intros iter k F E; [discriminate|]. cbn [eg_secret] in E.
  inversion F as [|? ? D F']; subst. destruct (rand_range false al (ofZ t) bin) as [k0| | |] eqn:R; try discriminate. cbn [bind] in E.
  destruct (rand_range_range al t bin k0 Ht D R) as (v & -> & Hv). destruct (gcd jx jy (ofZ v) (ofZ t)) as [g| | |]; try discriminate. cbn [bind] in E.
  destruct (cmp g mone =? 0); [inversion E; subst; eauto|]. destruct (iter + 1 <? 1024); [eauto|inversion E; subst; eauto].
Qed.

Lemma eg_verify_eq p g y r s m : prime p -> 0 <= r -> 0 <= s -> bytes m -> Z.of_nat (length m) <= count_bytes (ofZ p) ->
  eg_verify2 {| eg_p := ofZ p; eg_g := ofZ g; eg_y := ofZ y; eg_d := ofZ 0 |} (ofZ r) (ofZ s) m =
  if (y ^ r * r ^ s) mod p =? g ^ be_val m mod p then Ok 0 else Err (-1).
Proof.
  intros P Hr Hs Hm Hl. pose proof (prime_ge_2 p P). unfold eg_verify2. cbn [eg_p eg_g eg_y eg_d].
  replace (count_bytes (ofZ p) <? Z.of_nat (length m)) with false by lia.
  rewrite (mod_exp_ofZ y r p), (mod_exp_ofZ r s p) by lia. cbn [bind]. rewrite mul_ofZ. cbn [bind]. rewrite mod_ofZ by lia. cbn [bind].
  rewrite load_ofZ by (auto; apply Z.mod_pos_bound; lia).
  assert (0 <= be_val m) by (apply be_val_bound; auto).
  rewrite (mod_exp_ofZ g _ p) by lia. cbn [bind]. rewrite cmp_ofZ. rewrite <- Z.mul_mod by lia.
  set (u := (y ^ r * r ^ s) mod p). set (v := g ^ be_val m mod p). destruct (Z.eqb_spec u v) as [->|N].
  - rewrite Z.sub_diag. reflexivity.
  - replace (Z.sgn (u - v) =? 0) with false by lia. reflexivity.
Qed.
Lemma eg_verify_any_d p g y d r s m : eg_verify2 {| eg_p := p; eg_g := g; eg_y := y; eg_d := d |} r s m = eg_verify2 {| eg_p := p; eg_g := g; eg_y := y; eg_d := ofZ 0 |} r s m.
Proof. reflexivity. Qed.

(** What signing computes, whatever the draws. *)
Theorem eg_sign_form p g y d ss jx jy draws m r s : prime p -> 0 <= d -> bytes m -> Forall (eg_draw (p - 1)) draws ->
  eg_sign2 {| eg_p := ofZ p; eg_g := ofZ g; eg_y := y; eg_d := ofZ d |} ss jx jy draws m = Ok (r, s) ->
  exists k ki, 0 <= k < p - 1 /\ (k * ki) mod (p - 1) = 1 mod (p - 1) /\ Z.of_nat (length m) <= count_bytes (ofZ p) /\
    r = ofZ (g ^ k mod p) /\ s = ofZ (((be_val m - d * (g ^ k mod p)) * ki) mod (p - 1)).
Proof.
  intros P Hd Hm HF. pose proof (prime_ge_2 p P). unfold eg_sign2. cbn [eg_p eg_g eg_y eg_d].
  destruct (Z.ltb_spec (count_bytes (ofZ p)) (Z.of_nat (length m))) as [|L]; [discriminate|].
  rewrite mone_ofZ, sub_ofZ. cbn [bind]. destruct (eg_secret 0 jx jy (ofZ (p - 1)) draws) as [k| | |] eqn:K; try discriminate. cbn [bind].
  destruct (eg_secret_range jx jy (p - 1) ltac:(lia) draws 0 k HF K) as (v & -> & Hv).
  rewrite (mod_exp_ofZ g v p) by lia. cbn [bind]. rewrite load_bin_ofZ by auto. rewrite mul_ofZ. cbn [bind]. rewrite sub_ofZ. cbn [bind].
  rewrite mod_ofZ by lia. cbn [bind]. destruct (inv_ofZ v (p - 1) ltac:(lia)) as [I J].
  destruct (Z.eq_dec (Z.gcd v (p - 1)) 1) as [G|G]; [|rewrite (J G); discriminate]. destruct (I G) as (ki & -> & Hk & E). cbn [bind].
  rewrite mul_ofZ. cbn [bind]. rewrite mod_ofZ by lia. cbn [bind]. intro Q. inversion Q; subst. exists v, ki. split; [auto|]. split; [auto|]. split; [auto|]. split; [auto|].
  f_equal. rewrite Z.mul_mod_idemp_l by lia. reflexivity.
Qed.

Lemma fermat_period p g a b : prime p -> ~ (p | g) -> 0 <= a -> 0 <= b -> a mod (p - 1) = b mod (p - 1) -> g ^ a mod p = g ^ b mod p.
Proof.
  intros P N Ha Hb E. pose proof (prime_ge_2 p P). apply (pow_period g (p - 1)); auto; try lia. apply Fermat.fermat1; auto.
Qed.

Lemma eg_equation p g d k ki z : prime p -> ~ (p | g) -> 0 <= d -> 0 <= k < p - 1 -> 0 <= z -> (k * ki) mod (p - 1) = 1 mod (p - 1) ->
  let r := g ^ k mod p in let s := ((z - d * r) * ki) mod (p - 1) in
  ((g ^ d mod p) ^ r * r ^ s) mod p = g ^ z mod p.
Proof.
  intros P N Hd Hk Hz E r s. pose proof (prime_ge_2 p P).
  assert (Hr : 0 <= r < p) by (apply Z.mod_pos_bound; lia). assert (Hs : 0 <= s < p - 1) by (apply Z.mod_pos_bound; lia).
  rewrite (mod_mul ((g ^ d mod p) ^ r) (r ^ s) (g ^ (d * r)) (g ^ (k * s)) p).
  - rewrite <- Z.pow_add_r by (apply Z.mul_nonneg_nonneg; lia). apply fermat_period; auto; try (pose proof (Z.mul_nonneg_nonneg d r); pose proof (Z.mul_nonneg_nonneg k s); lia).
    replace z with (d * r + (z - d * r) * 1) at 1 by ring. apply mod_add; [lia|reflexivity|].
    transitivity (((z - d * r) * (k * ki)) mod (p - 1)).
    + replace ((z - d * r) * (k * ki)) with (k * ((z - d * r) * ki)) by ring. apply mod_mul; [lia|reflexivity|]. apply mod_modl. lia.
    + apply mod_mul; [lia|reflexivity|exact E].
  - lia.
  - rewrite pow_mod, <- Z.pow_mul_r by lia. reflexivity.
  - unfold r at 1. rewrite pow_mod, <- Z.pow_mul_r by lia. reflexivity.
Qed.

Theorem eg_complete p g d ss jx jy draws m r s : prime p -> ~ (p | g) -> 0 <= d -> bytes m -> Forall (eg_draw (p - 1)) draws ->
  let c := {| eg_p := ofZ p; eg_g := ofZ g; eg_y := ofZ (g ^ d mod p); eg_d := ofZ d |} in
  eg_sign2 c ss jx jy draws m = Ok (r, s) -> eg_verify2 c r s m = Ok 0.
Proof.
  intros P N Hd Hm HF c E. pose proof (prime_ge_2 p P). destruct (eg_sign_form p g _ d ss jx jy draws m r s P Hd Hm HF E) as (k & ki & Hk & I & L & -> & ->).
  unfold c. rewrite eg_verify_any_d, eg_verify_eq; auto; try (apply Z.mod_pos_bound; lia).
  rewrite (eg_equation p g d k ki (be_val m)); auto; [rewrite Z.eqb_refl; reflexivity|]. apply be_val_bound; auto.
Qed.

Theorem eg_complete_bytes p g d jx jy draws m sg : prime p -> ~ (p | g) -> 0 <= d -> bytes m -> Forall (eg_draw (p - 1)) draws ->
  let c := {| eg_p := ofZ p; eg_g := ofZ g; eg_y := ofZ (g ^ d mod p); eg_d := ofZ d |} in
  eg_sign c jx jy draws m = Ok sg -> eg_verify c sg m = Ok 0.
Proof.
  intros P N Hd Hm HF c. pose proof (prime_ge_2 p P). unfold eg_sign. destruct (eg_sign2 c false jx jy draws m) as [[r s]| | |] eqn:E; try discriminate. cbn [bind].
  pose proof (eg_complete p g d false jx jy draws m r s P N Hd Hm HF E) as V. fold c in V.
  destruct (eg_sign_form p g _ d false jx jy draws m r s P Hd Hm HF E) as (k & ki & Hk & I & L & -> & ->).
  set (u := g ^ k mod p) in *. set (w := ((be_val m - d * u) * ki) mod (p - 1)) in *.
  assert (Hu : 0 <= u < p) by (apply Z.mod_pos_bound; lia). assert (Hw : 0 <= w < p - 1) by (apply Z.mod_pos_bound; lia).
  change (eg_p c) with (ofZ p). pose proof (cb_le u p ltac:(lia)) as Cu. pose proof (cb_le w p ltac:(lia)) as Cw. pose proof (cb_nonneg p) as Cp.
  rewrite (store_ofZ u) by lia. cbn [bind]. rewrite (store_ofZ w) by lia. cbn [bind]. intro Q. apply (f_equal (fun x => match x with Ok a => a | _ => [] end)) in Q. subst sg.
  unfold eg_verify. change (eg_p c) with (ofZ p). set (n := Z.to_nat (count_bytes (ofZ p))) in *.
  rewrite app_length, !be_bytes_length, Nat.ltb_irrefl.
  rewrite firstn_app, be_bytes_length, Nat.sub_diag, firstn_O, app_nil_r, firstn_all2 by (rewrite be_bytes_length; lia).
  rewrite skipn_app, be_bytes_length, Nat.sub_diag, skipn_O, skipn_all2 by (rewrite be_bytes_length; lia). rewrite app_nil_l, firstn_all2 by (rewrite be_bytes_length; lia).
  rewrite !load_bin_ofZ by apply be_bytes_bytes. unfold n. rewrite !be_val_store by lia. exact V.
Qed.

(** Signing succeeds with the first draw whose secret is usable. *)
Theorem eg_sign_ok p g y d ss jx jy al bin rest m k : prime p -> bytes m -> Z.of_nat (length m) <= count_bytes (ofZ p) ->
  rand_range false al (ofZ (p - 1)) bin = Ok (ofZ k) -> 0 < k -> Z.gcd k (p - 1) = 1 -> 2 < p ->
  exists r s, eg_sign2 {| eg_p := ofZ p; eg_g := ofZ g; eg_y := y; eg_d := ofZ d |} ss jx jy ((al, bin) :: rest) m = Ok (r, s).
Proof.
  intros P Hm L R Hk G H2. unfold eg_sign2. cbn [eg_p eg_g eg_y eg_d].
  replace (count_bytes (ofZ p) <? Z.of_nat (length m)) with false by lia. rewrite mone_ofZ, sub_ofZ. cbn [bind eg_secret]. rewrite R. cbn [bind].
  rewrite gcd_ofZ by lia. cbn [bind]. rewrite G, mone_ofZ, cmp_ofZ, Z.sub_diag. cbn [Z.sgn Z.eqb bind].
  rewrite (mod_exp_ofZ g k p) by lia. cbn [bind]. rewrite load_bin_ofZ by auto. rewrite mul_ofZ. cbn [bind]. rewrite sub_ofZ. cbn [bind].
  rewrite mod_ofZ by lia. cbn [bind]. destruct (inv_ofZ k (p - 1) ltac:(lia)) as [I _]. destruct (I G) as (ki & -> & _). cbn [bind].
  rewrite mul_ofZ. cbn [bind]. rewrite mod_ofZ by lia. cbn [bind]. eauto.
Qed.

(** * DSA *)
Lemma chk_ok {A T} (x : A) (k : A -> res T) d : chk (Ok x) k d = k x.
Proof. reflexivity. Qed.

Lemma dsa_secret_ok q bin : prime q -> q < 2 ^ 512 -> draw_for q bin -> exists k, dsa_secret (ofZ q) bin = Ok (ofZ k) /\ 0 < k < q.
Proof.
  intros Q L [HB HL]. pose proof (prime_ge_2 q Q). unfold dsa_secret. rewrite mone_ofZ, sub_ofZ, chk_ok.
  pose proof (count_bits_ofZ q) as CB. replace (q =? 0) with false in CB by lia. rewrite Z.abs_eq in CB by lia. pose proof (Z.log2_nonneg q) as LN.
  assert (L2 : Z.log2 q < 512) by (apply Z.log2_lt_pow2; lia).
  destruct (rand_ok false 8 (count_bits (ofZ q)) bin) as (r & R & W & SG & _).
  - lia.
  - exact HB.
  - rewrite HL, CB. f_equal. lia.
  - left. unfold ndigs. rewrite CB. assert ((Z.log2 q + 1 - 1) / 64 < 8) by (apply Z.div_lt_upper_bound; lia). lia.
  - rewrite R, chk_ok. assert (C : canon r). { split; auto. intros _. destruct (be_val bin =? 0); exact SG. }
    rewrite (canon_is_ofZ r C). rewrite mod_ofZ by lia. rewrite chk_ok, add_ofZ, chk_ok. eexists. split; [reflexivity|].
    pose proof (Z.mod_pos_bound (mval r) (q - 1) ltac:(lia)). lia.
Qed.

Lemma gcd_prime_small q k : prime q -> 0 < k < q -> Z.gcd k q = 1.
Proof. intros Q H. apply Zgcd_1_rel_prime. apply rel_prime_le_prime; auto. lia. Qed.

Theorem dsa_sign_form p q g x pub r0 s0 bin m : 1 < p -> prime q -> q < 2 ^ 512 -> draw_for q bin -> bytes m ->
  let z := be_val (firstn (8 * used (ofZ q)) m) in
  exists k ki, 0 < k < q /\ (k * ki) mod q = 1 /\
  let r := (g ^ k mod p) mod q in let s := ((x * r + z) * ki) mod q in
  dsa_sign {| dsa_p := ofZ p; dsa_q := ofZ q; dsa_g := ofZ g; dsa_pvt := ofZ x; dsa_pub := pub |} r0 s0 bin m = Ok (0, ofZ r, ofZ s).
Proof.
  intros Hp Q L D Hm z. pose proof (prime_ge_2 q Q). destruct (dsa_secret_ok q bin Q L D) as (k & K & Hk).
  destruct (inv_ofZ k q ltac:(lia)) as [I _]. destruct (I (gcd_prime_small q k Q Hk)) as (ki & IK & Hki & E). rewrite Z.mod_1_l in E by lia.
  exists k, ki. split; [auto|]. split; [auto|]. cbv zeta. unfold dsa_sign. cbn [dsa_p dsa_q dsa_g dsa_pvt dsa_pub]. rewrite K, chk_ok.
  rewrite (mod_exp_ofZ g k p) by lia. rewrite chk_ok, mod_ofZ by lia. rewrite chk_ok, IK, chk_ok, mul_ofZ, chk_ok.
  unfold dsa_trunc. rewrite load_bin_ofZ by (apply bytes_firstn; exact Hm). rewrite add_ofZ, chk_ok, mul_ofZ, chk_ok, mod_ofZ by lia. reflexivity.
Qed.

Theorem dsa_verify_form p q g pvt y m r s : 1 < p -> 1 < q -> bytes m -> Z.gcd s q = 1 ->
  let z := be_val (firstn (8 * used (ofZ q)) m) in
  exists w, 0 <= w < q /\ (s * w) mod q = 1 /\
  dsa_verify {| dsa_p := ofZ p; dsa_q := ofZ q; dsa_g := ofZ g; dsa_pvt := pvt; dsa_pub := ofZ y |} (ofZ r) (ofZ s) m =
  Ok (if dsa_v p q g y z r w =? Z.abs r then 0 else -1).
Proof.
  intros Hp Hq Hm G z. destruct (inv_ofZ s q ltac:(lia)) as [I _]. destruct (I G) as (w & W & Hw & E). rewrite Z.mod_1_l in E by lia.
  exists w. split; [auto|]. split; [auto|]. unfold dsa_verify. cbn [dsa_p dsa_q dsa_g dsa_pvt dsa_pub]. rewrite W, chk_ok.
  unfold dsa_trunc. rewrite load_bin_ofZ by (apply bytes_firstn; exact Hm). fold z. rewrite mul_ofZ, chk_ok, mod_ofZ, chk_ok, mul_ofZ, chk_ok, mod_ofZ, chk_ok by lia.
  pose proof (Z.mod_pos_bound (z * w) q ltac:(lia)). pose proof (Z.mod_pos_bound (r * w) q ltac:(lia)).
  rewrite (mod_exp_ofZ g _ p), chk_ok by lia. rewrite (mod_exp_ofZ y _ p), chk_ok by lia. rewrite mul_ofZ, chk_ok, mod_ofZ, chk_ok, mod_ofZ, chk_ok by lia.
  rewrite <- Z.mul_mod by lia. fold (dsa_v p q g y z r w). rewrite cmp_abs_ofZ. set (v := dsa_v p q g y z r w).
  assert (0 <= v < q) by (apply Z.mod_pos_bound; lia). rewrite (Z.abs_eq v) by lia. clearbody v. clear - H1. replace (Z.sgn (v - Z.abs r) =? 0) with (v =? Z.abs r) by lia. reflexivity.
Qed.

Theorem dsa_verify_err p q g pvt y m r s : 0 < q -> Z.gcd s q <> 1 ->
  dsa_verify {| dsa_p := p; dsa_q := ofZ q; dsa_g := g; dsa_pvt := pvt; dsa_pub := y |} r (ofZ s) m = Ok 0.
Proof.
  intros Hq G. destruct (inv_ofZ s q Hq) as [_ J]. unfold dsa_verify. cbn [dsa_p dsa_q dsa_g dsa_pvt dsa_pub]. rewrite (J G). reflexivity.
Qed.

Lemma dsa_equation p q g x k ki z w : dsa_domain p q g -> 0 <= x -> 0 < k < q -> 0 <= z -> (k * ki) mod q = 1 ->
  let r := (g ^ k mod p) mod q in let s := ((x * r + z) * ki) mod q in
  0 <= w < q -> (s * w) mod q = 1 -> dsa_v p q g (g ^ x mod p) z r w = r.
Proof.
  intros (P & Q & D & G) Hx Hk Hz K r s Hw W. pose proof (prime_ge_2 p P). pose proof (prime_ge_2 q Q).
  assert (Hr : 0 <= r < q) by (apply Z.mod_pos_bound; lia).
  unfold dsa_v. pose proof (Z.mod_pos_bound (z * w) q ltac:(lia)) as B1. pose proof (Z.mod_pos_bound (r * w) q ltac:(lia)) as B2.
  set (u1 := (z * w) mod q) in *. set (u2 := (r * w) mod q) in *.
  enough (E : (g ^ u1 * (g ^ x mod p) ^ u2) mod p = g ^ k mod p) by (rewrite E; reflexivity).
  rewrite (mod_mul (g ^ u1) ((g ^ x mod p) ^ u2) (g ^ u1) (g ^ (x * u2)) p); [|lia|reflexivity|rewrite pow_mod, <- Z.pow_mul_r by lia; reflexivity].
  rewrite <- Z.pow_add_r by (try apply Z.mul_nonneg_nonneg; lia). assert (0 <= x * u2) by (apply Z.mul_nonneg_nonneg; [exact Hx|apply B2]).
  refine (pow_period g q p (u1 + x * u2) k _ _ G _ _ _); [clear - H; lia|clear - H0; lia|exact (Z.add_nonneg_nonneg _ _ (proj1 B1) H1)|clear - Hk; lia|].
  (* u1 + x u2 = w (z + x r) = k *)
  transitivity ((z * w + x * (r * w)) mod q).
  { apply mod_add; [lia|unfold u1; apply mod_modl; lia|]. apply mod_mul; [lia|reflexivity|unfold u2; apply mod_modl; lia]. }
  replace (z * w + x * (r * w)) with ((x * r + z) * w * 1) by ring.
  transitivity (((x * r + z) * w * (k * ki)) mod q). { apply mod_mul; [lia|reflexivity|]. rewrite K, Z.mod_1_l by lia. reflexivity. }
  replace ((x * r + z) * w * (k * ki)) with (k * (((x * r + z) * ki) * w)) by ring.
  transitivity ((k * 1) mod q); [|rewrite Z.mul_1_r; reflexivity]. apply mod_mul; [lia|reflexivity|].
  transitivity ((s * w) mod q); [|rewrite W, Z.mod_1_l by lia; reflexivity]. apply mod_mul; [lia|unfold s; symmetry; apply mod_modl; lia|reflexivity].
Qed.

Theorem dsa_complete p q g x bin m r0 s0 : dsa_domain p q g -> q < 2 ^ 512 -> 0 <= x -> draw_for q bin -> bytes m ->
  let c := {| dsa_p := ofZ p; dsa_q := ofZ q; dsa_g := ofZ g; dsa_pvt := ofZ x; dsa_pub := ofZ (g ^ x mod p) |} in
  exists r s, dsa_sign c r0 s0 bin m = Ok (0, r, s) /\ dsa_verify c r s m = Ok 0.
Proof.
  intros DD L Hx D Hm c. destruct DD as (P & Q & DV & G). pose proof (prime_ge_2 p P). pose proof (prime_ge_2 q Q).
  destruct (dsa_sign_form p q g x (ofZ (g ^ x mod p)) r0 s0 bin m ltac:(lia) Q L D Hm) as (k & ki & Hk & K & E). cbv zeta in E.
  eexists. eexists. split; [exact E|]. set (z := be_val (firstn (8 * used (ofZ q)) m)) in *. set (r := (g ^ k mod p) mod q) in *. set (s := ((x * r + z) * ki) mod q) in *.
  destruct (Z.eq_dec (Z.gcd s q) 1) as [GS|GS].
  - destruct (dsa_verify_form p q g (ofZ x) (g ^ x mod p) m r s ltac:(lia) ltac:(lia) Hm GS) as (w & Hw & W & V). fold z in V. unfold c. rewrite V.
    assert (Hr : 0 <= r < q) by (apply Z.mod_pos_bound; lia). rewrite (Z.abs_eq r) by lia.
    assert (EQ := dsa_equation p q g x k ki z w (conj P (conj Q (conj DV G))) Hx Hk ltac:(apply be_val_bound; apply bytes_firstn; auto) K Hw W).
    fold r in EQ. rewrite EQ, Z.eqb_refl. reflexivity.
  - unfold c. apply dsa_verify_err; [lia|auto].
Qed.
