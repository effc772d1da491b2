(** The proofs for the named curves. *)
From Coq Require Import Znumtheory.
From Verif Require Import Base BytesSpec Bytes MpiModel MpiSpec MpiAlg2 MpiIOModel MpiTextSpec MpiRand NumTh EcpModel EcSpec EcZ EcpSpec Ecp EcpMul EcPk EcCurvesModel EcCurvesSpec EcCurves EcNamedSpec.
From Verif Require Cert192r1 Cert192k1 Cert224r1 Cert224k1 Cert256r1 Cert256k1.

Lemma certified_named id c : In (id, c) certified -> In (id, c) named.
Proof. unfold certified, named. cbn [In]. intuition. Qed.
Lemma by_curve (Q : curve -> Prop) : Q secp192r1 -> Q secp224r1 -> Q secp256r1 -> Q secp192k1 -> Q secp224k1 -> Q secp256k1 ->
  forall id c, In (id, c) certified -> Q c.
Proof.
  intros H1 H2 H3 H4 H5 H6 id c H. assert (F : Forall (fun x => Q (snd x)) certified) by (repeat (apply Forall_cons; [assumption|]); apply Forall_nil).
  rewrite Forall_forall in F. exact (F (id, c) H).
Qed.
Lemma certified_domain : forall id c, In (id, c) certified -> ecdsa_domain (cp c) (ca c) (cb c) (cg c) (cn c).
Proof. exact (by_curve (fun c => ecdsa_domain (cp c) (ca c) (cb c) (cg c) (cn c)) Cert192r1.domain Cert224r1.domain Cert256r1.domain Cert192k1.domain Cert224k1.domain Cert256k1.domain). Qed.
Lemma certified_points1 : forall id c, In (id, c) certified -> forall P, on_curve (cp c) (ca c) (cb c) P -> no_order2 (cp c) (ca c) P.
Proof. exact (by_curve (fun c => forall P, on_curve (cp c) (ca c) (cb c) P -> no_order2 (cp c) (ca c) P) Cert192r1.points Cert224r1.points Cert256r1.points Cert192k1.points Cert224k1.points Cert256k1.points). Qed.
Lemma certified_points id c P : In (id, c) certified -> on_curve (cp c) (ca c) (cb c) P -> no_order2 (cp c) (ca c) P.
Proof. intro H. exact (certified_points1 id c H P). Qed.
Lemma certified_digits : forall id c, In (id, c) certified -> (used (ofZ (cn c)) <= 4)%nat.
Proof. apply (by_curve (fun c => (used (ofZ (cn c)) <= 4)%nat)); apply Nat.leb_le; vm_compute; reflexivity. Qed.
Lemma certified_load id c g : In (id, c) certified -> ecp_grp_load id = Ok g -> g = egrp (cp c) (am_of (ca c)) (cb c) (cg c) (cn c).
Proof. intros H L. destruct (named_ok id c (certified_named id c H)) as [E _]. rewrite E in L. unfold cgrp in L. congruence. Qed.

Section Curve.
  Variables (id : Z) (c : curve) (g : grp).
  Hypothesis HC : In (id, c) certified.
  Hypothesis HL : ecp_grp_load id = Ok g.
  Let p := cp c.
  Let a := ca c.
  Let b := cb c.
  Let G := cg c.
  Let n := cn c.
  Let dom : ecdsa_domain p a b G n := certified_domain id c HC.
  Let HG : good_curve p a b := proj1 dom.
  Let rep := am_of_rep a.
  Let eg : g = egrp p (am_of a) b G n := certified_load id c g HC HL.

  Lemma not_two P : on_curve p a b P -> forall x, P <> Some (x, 0).
  Proof. intros HP x E. pose proof (certified_points id c P HC HP 1 x ltac:(lia)) as N. apply N. rewrite ec_mul_1. exact E. Qed.
  Lemma named_add P Q : on_curve p a b P -> on_curve p a b Q -> ecp_add g (ept P) (ept Q) = Ok (ept (ec_add p a P Q)).
  Proof. intros HP HQ. rewrite eg. apply (ecp_add_ok p a b _ rep HG); auto. intros [_ [x X]]. exact (not_two P HP x X). Qed.
  Lemma named_dbl P : on_curve p a b P -> ecp_dbl g (ept P) = Ok (ept (ec_add p a P P)).
  Proof. intros HP. rewrite eg. apply (ecp_dbl_ok p a b _ rep HG); auto. apply not_two. exact HP. Qed.
  Lemma named_mul P k : on_curve p a b P -> ecp_mul g (ept P) (ofZ k) = Ok (ept (ec_mul p a (Z.abs k) P)).
  Proof. intros HP. rewrite eg. apply (ecp_mul_ok p a b); auto. exact (certified_points id c P HC HP). Qed.
  Lemma named_order k : 0 <= k -> (ec_mul p a k G = None <-> (n | k)).
  Proof.
    intro Hk. pose proof dom as (_ & HP & NG & Hn & L & E). split.
    - intro E0. destruct (Z.eq_dec (k mod n) 0) as [M|M]; [apply Zmod_divide; [lia|exact M]|exfalso].
      pose proof (Z.mod_pos_bound k n ltac:(lia)). apply (domain_finite p a b G n (k mod n) dom); [lia|]. rewrite <- E0.
      apply (ec_mul_period p a b HG n); auto; try lia. apply Zmod_mod.
    - intros [m ->]. assert (0 <= m) by nia. rewrite <- (ec_mul_mul p a b HG) by (auto; lia). rewrite E. apply ec_mul_None.
  Qed.
  Lemma named_ecdh d1 d2 q1 z1 q2 z2 : 0 <= d1 -> 0 <= d2 ->
    ecdh_exchange {| dh_ec := g; dh_d := ofZ d1; dh_q := q1; dh_z := z1 |} {| dh_ec := g; dh_d := ofZ d2; dh_q := q2; dh_z := z2 |} =
    Ok (ept (ec_mul p a (d1 * d2) G), ept (ec_mul p a (d1 * d2) G)).
  Proof. intros. rewrite eg. apply (ecdh_ok p a b); auto. exact (proj1 (proj2 dom)). exact (domain_odd _ _ _ _ _ dom). Qed.
  Lemma named_final d Q z : on_curve p a b Q ->
    ecdh_final {| dh_ec := g; dh_d := ofZ d; dh_q := ept Q; dh_z := z |} = Ok {| dh_ec := g; dh_d := ofZ d; dh_q := ept Q; dh_z := ept (ec_mul p a (Z.abs d) Q) |}.
  Proof. intro HQ. unfold ecdh_final. cbn [dh_ec dh_d dh_q]. rewrite named_mul by exact HQ. reflexivity. Qed.
  Lemma named_verify pvt Q m r s : on_curve p a b Q -> bytes m -> Z.gcd s n = 1 ->
    let z := be_val (firstn (8 * used (ofZ n)) m) in
    exists w, 0 <= w < n /\ (s * w) mod n = 1 /\
    ecdsa_verify {| sa_grp := g; sa_d := pvt; sa_q := ept Q |} (ofZ r) (ofZ s) m =
    if xcoord (ecdsa_point p a G Q n z r w) mod n =? Z.abs r then Ok 0 else Err (-1).
  Proof. intros HQ. rewrite eg. apply (ecdsa_verify_any p a b); auto. exact (certified_points id c Q HC HQ). Qed.
  Lemma named_ecdsa d0 q0 alloc kbin : draw_for n kbin -> (4 <= alloc)%nat ->
    exists d key, 0 <= d < n /\ ecdsa_keygen {| sa_grp := g; sa_d := d0; sa_q := q0 |} false alloc kbin = Ok key /\
    forall r0 s0 bin m, draw_for n bin -> bytes m ->
    exists k, 0 <= k < n /\ rand_range false 8 (ofZ n) bin = Ok (ofZ k) /\
    (0 < k -> exists x y s, ec_mul p a k G = Some (x, y) /\ 0 <= x < p /\ 0 <= s < n /\
       ecdsa_sign key r0 s0 bin m = Ok (0, ofZ x, ofZ s) /\
       (0 < s -> ecdsa_verify key (ofZ x) (ofZ s) m = if x <? n then Ok 0 else Err (-1))).
  Proof.
    intros Hb Ha. pose proof dom as (_ & HP & NG & Hn & L & E). pose proof (certified_digits id c HC) as U. fold n in U.
    destruct (ecdsa_keygen_ok p a b (am_of a) G n d0 q0 alloc kbin rep dom Hb ltac:(lia)) as (d & Hd & EK). exists d, (ekey p a (am_of a) b G n d).
    split; [exact Hd|]. split; [rewrite eg; exact EK|]. intros r0 s0 bin m Db Hm.
    assert (U8 : (used (ofZ n) <= 8)%nat) by (apply (Nat.le_trans _ 4); [exact U|repeat constructor]).
    destruct (rand_range_ok 8 n bin ltac:(lia) Db (or_introl U8)) as (k & EK' & Hk). exists k. split; [exact Hk|]. split; [exact EK'|]. intro K0.
    destruct (ecdsa_complete p a b (am_of a) G n d r0 s0 bin m k rep dom (proj1 Hd) Hm EK' ltac:(lia)) as (x & y & s & EX & Hs & ES & EV).
    exists x, y, s. split; [exact EX|]. split; [|auto]. pose proof (ec_mul_on p a b HG k G HP ltac:(lia)) as O. rewrite EX in O. apply O.
  Qed.
End Curve.

(** * The hash *)
Lemma Forall_skipn_b k m : bytes m -> bytes (skipn k m).
Proof. intro H. rewrite <- (firstn_skipn k m) in H. apply Forall_app in H. apply H. Qed.
Lemma log2_used n : 0 < n -> 64 * Z.of_nat (used (ofZ n) - 1) <= Z.log2 n < 64 * Z.of_nat (used (ofZ n)) /\ (0 < used (ofZ n))%nat.
Proof.
  intro H. destruct (used_bounds n H) as (U & L & R). split; [|exact U].
  rewrite B_pow in L, R by lia. split; [apply Z.log2_le_pow2; assumption|apply Z.log2_lt_pow2; assumption].
Qed.
Lemma hash_short n m : 0 < n -> 8 * Z.of_nat (length m) <= Z.log2 n + 1 -> be_val (firstn (8 * used (ofZ n)) m) = fips_hash n m.
Proof.
  intros Hn L. destruct (log2_used n Hn) as [U _]. unfold fips_hash. destruct (Z.ltb_spec (Z.log2 n + 1) (8 * Z.of_nat (length m))); [lia|]. rewrite firstn_all2 by lia. reflexivity.
Qed.
Lemma hash_full n m : 0 < n -> (Z.log2 n + 1) mod 64 = 0 -> bytes m -> be_val (firstn (8 * used (ofZ n)) m) = fips_hash n m.
Proof.
  intros Hn M Hm. destruct (Z_le_gt_dec (8 * Z.of_nat (length m)) (Z.log2 n + 1)) as [L|L]; [apply hash_short; auto|].
  destruct (log2_used n Hn) as [U U0]. assert (E : Z.log2 n + 1 = 64 * Z.of_nat (used (ofZ n))). { apply Z.mod_divide in M; [|lia]. destruct M as [q M]. lia. }
  unfold fips_hash. destruct (Z.ltb_spec (Z.log2 n + 1) (8 * Z.of_nat (length m))); [|lia].
  set (k := (8 * used (ofZ n))%nat) in *. assert (B8 : 8 * Z.of_nat (length m) - (Z.log2 n + 1) = 8 * Z.of_nat (length (skipn k m))) by (rewrite skipn_length; lia).
  rewrite B8. rewrite <- (firstn_skipn k m) at 2. rewrite be_val_app. change 256 with (2 ^ 8). rewrite <- Z.pow_mul_r by lia.
  rewrite Z.div_add_l by (apply Z.pow_nonzero; lia). rewrite Z.div_small; [lia|]. pose proof (be_val_bound (skipn k m) (Forall_skipn_b k m Hm)) as R. change 256 with (2 ^ 8) in R. rewrite <- Z.pow_mul_r in R by lia. exact R.
Qed.
Lemma hash_differs id c g d pub r0 s0 bin k : In (id, c) certified -> ecp_grp_load id = Ok g -> (id = 1 \/ id = 6) -> 
  rand_range false 8 (ofZ (cn c)) bin = Ok (ofZ k) -> 0 < k < cn c ->
  let m := repeat 0 31 ++ [1] in
  exists x y ki s, ec_mul (cp c) (ca c) k (cg c) = Some (x, y) /\ 0 <= ki < cn c /\ (k * ki) mod cn c = 1 /\
  ecdsa_sign {| sa_grp := g; sa_d := ofZ d; sa_q := pub |} r0 s0 bin m = Ok (0, ofZ x, ofZ s) /\
  s <> ((d * x + fips_hash (cn c) m) * ki) mod cn c.
Proof.
  intros HC HL Hid HR Hk m. pose proof (certified_domain id c HC) as D. rewrite (certified_load id c g HC HL).
  assert (Hm : bytes m) by (repeat constructor; lia).
  destruct (ecdsa_sign_form _ _ _ (am_of (ca c)) _ _ d pub r0 s0 bin m k (am_of_rep (ca c)) D Hm HR Hk) as (x & y & ki & EX & Hki & K & ES).
  assert (Z1 : be_val (firstn (8 * used (ofZ (cn c))) m) = 1 /\ fips_hash (cn c) m = 0).
  { clear - HC Hid. repeat (destruct HC as [HC|HC]; [apply pair_equal_spec in HC; destruct HC as [<- <-]; try (exfalso; clear - Hid; lia); split; vm_compute; reflexivity|]). destruct HC. }
  destruct Z1 as [Z1 Z2]. rewrite Z1 in ES. rewrite Z2. exists x, y, ki. eexists. split; [exact EX|]. split; [exact Hki|]. split; [exact K|]. split; [exact ES|].
  destruct D as (_ & _ & _ & _ & N2 & _). set (n := cn c) in *. clearbody n. clear - Hki K N2. intro E. apply divide_mod_eq in E; [|lia]. replace ((d * x + 1) * ki - (d * x + 0) * ki) with ki in E by ring.
  apply Zdivide_mod in E. rewrite Z.mod_small in E by lia. subst ki. rewrite Z.mul_0_r, Z.mod_0_l in K; lia.
Qed.
Lemma named_sign id c g d pub r0 s0 bin m k : In (id, c) certified -> ecp_grp_load id = Ok g -> bytes m ->
  (Z.log2 (cn c) + 1) mod 64 = 0 \/ 8 * Z.of_nat (length m) <= Z.log2 (cn c) + 1 ->
  rand_range false 8 (ofZ (cn c)) bin = Ok (ofZ k) -> 0 < k < cn c ->
  exists x y ki, ec_mul (cp c) (ca c) k (cg c) = Some (x, y) /\ 0 <= ki < cn c /\ (k * ki) mod cn c = 1 /\
  ecdsa_sign {| sa_grp := g; sa_d := ofZ d; sa_q := pub |} r0 s0 bin m = Ok (0, ofZ x, ofZ (((d * x + fips_hash (cn c) m) * ki) mod cn c)).
Proof.
  intros HC HL Hm Hz HR Hk. pose proof (certified_domain id c HC) as D. rewrite (certified_load id c g HC HL).
  assert (N0 : 0 < cn c) by lia. assert (HZ : be_val (firstn (8 * used (ofZ (cn c))) m) = fips_hash (cn c) m) by (destruct Hz; [apply hash_full|apply hash_short]; auto).
  rewrite <- HZ. exact (ecdsa_sign_form _ _ _ (am_of (ca c)) _ _ d pub r0 s0 bin m k (am_of_rep (ca c)) D Hm HR Hk).
Qed.
