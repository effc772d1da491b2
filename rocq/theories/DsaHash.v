(** Which bits of the hash DSA signs. *)
From Coq Require Import Znumtheory.
From Verif Require Import Base BytesSpec Bytes MpiModel MpiSpec MpiDigits MpiIOModel MpiIO MpiTextSpec PkModel PkSpec Pk EcNamedSpec EcpSpec NumTh EcNamed.

(** a hash that is 0 but for one byte, 1: the last one the library reads *)
Definition odd_hash (u len : nat) : list Z := if (len <? u)%nat then repeat 0 (len - 1) ++ [1] else repeat 0 (u - 1) ++ 1 :: repeat 0 (len - u).
Lemma zeros_val k : be_val (repeat 0 k) = 0.
Proof. induction k as [|k IH]; [reflexivity|]. replace (S k) with (k + 1)%nat by lia. rewrite repeat_app, be_val_app, IH. reflexivity. Qed.
Lemma zeros_bytes k : bytes (repeat 0 k).
Proof. apply Forall_forall. intros x H. apply repeat_spec in H. subst. red. lia. Qed.
Lemma odd_hash_ok u len : (0 < u)%nat -> (0 < len)%nat -> bytes (odd_hash u len) /\ length (odd_hash u len) = len /\
  be_val (firstn u (odd_hash u len)) = 1 /\ be_val (odd_hash u len) = 2 ^ (8 * Z.of_nat (len - u)).
Proof.
  intros Hu Hl. unfold odd_hash. destruct (Nat.ltb_spec len u) as [L|L].
  - assert (E : be_val (repeat 0 (len - 1) ++ [1]) = 1) by (rewrite be_val_app, zeros_val; reflexivity).
    assert (N : length (repeat 0 (len - 1) ++ [1]) = len) by (rewrite app_length, repeat_length; cbn; lia).
    split; [apply Forall_app; split; [apply zeros_bytes|constructor; [red; lia|constructor]]|]. split; [exact N|]. split; [rewrite firstn_all2 by lia; exact E|]. rewrite E. replace (len - u)%nat with 0%nat by lia. reflexivity.
  - split; [apply Forall_app; split; [apply zeros_bytes|constructor; [red; lia|apply zeros_bytes]]|]. split; [rewrite app_length; cbn [length]; rewrite !repeat_length; lia|]. split.
    + replace (repeat 0 (u - 1) ++ 1 :: repeat 0 (len - u)) with ((repeat 0 (u - 1) ++ [1]) ++ repeat 0 (len - u)) by (rewrite <- app_assoc; reflexivity).
      replace u with (length (repeat 0 (u - 1) ++ [1])) at 1 by (rewrite app_length, repeat_length; cbn; lia).
      rewrite firstn_app, firstn_all, Nat.sub_diag, firstn_O, app_nil_r, be_val_app, zeros_val. reflexivity.
    + rewrite be_val_app, zeros_val. change (1 :: repeat 0 (len - u)) with ([1] ++ repeat 0 (len - u)). rewrite be_val_app, zeros_val, repeat_length.
      change (be_val [1]) with 1. rewrite Z.pow_mul_r by lia. change (2 ^ 8) with 256. lia.
Qed.
Lemma dsa_hash p q g x y r0 s0 bin m : 1 < p -> prime q -> q < 2 ^ 512 -> draw_for q bin -> bytes m -> (Z.log2 q + 1) mod 64 = 0 \/ 8 * Z.of_nat (length m) <= Z.log2 q + 1 ->
  exists k ki, 0 < k < q /\ (k * ki) mod q = 1 /\
  let r := (g ^ k mod p) mod q in
  dsa_sign {| dsa_p := ofZ p; dsa_q := ofZ q; dsa_g := ofZ g; dsa_pvt := ofZ x; dsa_pub := y |} r0 s0 bin m = Ok (0, ofZ r, ofZ (((x * r + fips_hash q m) * ki) mod q)).
Proof.
  intros Hp Q Lq DR Bm Hz. pose proof (prime_ge_2 q Q) as Q2. assert (Q0 : 0 < q) by (clear - Q2; lia).
  assert (HZ : be_val (firstn (8 * used (ofZ q)) m) = fips_hash q m) by (destruct Hz; [apply hash_full|apply hash_short]; auto).
  rewrite <- HZ. exact (dsa_sign_form p q g x y r0 s0 bin m Hp Q Lq DR Bm).
Qed.
Lemma dsa_hash_verify p q g pvt y m r s : 1 < p -> 1 < q -> bytes m -> (Z.log2 q + 1) mod 64 = 0 \/ 8 * Z.of_nat (length m) <= Z.log2 q + 1 -> Z.gcd s q = 1 ->
  exists w, 0 <= w < q /\ (s * w) mod q = 1 /\
  dsa_verify {| dsa_p := ofZ p; dsa_q := ofZ q; dsa_g := ofZ g; dsa_pvt := pvt; dsa_pub := ofZ y |} (ofZ r) (ofZ s) m =
  Ok (if dsa_v p q g y (fips_hash q m) r w =? Z.abs r then 0 else -1).
Proof.
  intros Hp Hq Bm Hz G. assert (Q0 : 0 < q) by (clear - Hq; lia).
  assert (HZ : be_val (firstn (8 * used (ofZ q)) m) = fips_hash q m) by (destruct Hz; [apply hash_full|apply hash_short]; auto).
  rewrite <- HZ. exact (dsa_verify_form p q g pvt y m r s Hp Hq Bm G).
Qed.
Lemma dsa_hash_differs q len : prime q -> q < 2 ^ 512 -> (Z.log2 q + 1) mod 64 <> 0 -> Z.log2 q + 1 < 8 * Z.of_nat len ->
  exists m, bytes m /\ length m = len /\ forall p g x y r0 s0 bin, 1 < p -> draw_for q bin ->
  exists k ki s, 0 < k < q /\ (k * ki) mod q = 1 /\
  let r := (g ^ k mod p) mod q in
  dsa_sign {| dsa_p := ofZ p; dsa_q := ofZ q; dsa_g := ofZ g; dsa_pvt := ofZ x; dsa_pub := y |} r0 s0 bin m = Ok (0, ofZ r, ofZ s) /\
  s <> ((x * r + fips_hash q m) * ki) mod q.
Proof.
  intros Q Lq NM HL. pose proof (prime_ge_2 q Q) as Q2. assert (Q0 : 0 < q) by (clear - Q2; lia). destruct (log2_used q Q0) as [U U0].
  pose proof (Z.log2_nonneg q) as LN. set (u := (8 * used (ofZ q))%nat).
  assert (L0 : (0 < len)%nat) by (clear - HL LN; lia). assert (LU : Z.log2 q + 1 < 8 * Z.of_nat u).
  { destruct (Z.eq_dec (Z.log2 q + 1) (8 * Z.of_nat u)) as [E|]; [|unfold u in *; clear - U n; lia]. exfalso. apply NM. rewrite E. unfold u. replace (8 * Z.of_nat (8 * used (ofZ q))) with (Z.of_nat (used (ofZ q)) * 64) by lia. apply Z.mod_mul. discriminate. }
  destruct (odd_hash_ok u len ltac:(unfold u; clear - U0; lia) L0) as (BM & LM & V1 & V2). exists (odd_hash u len). split; [exact BM|]. split; [exact LM|].
  intros p g x y r0 s0 bin Hp DR. destruct (dsa_sign_form p q g x y r0 s0 bin _ Hp Q Lq DR BM) as (k & ki & Hk & K & E). cbv zeta in E. fold u in E. rewrite V1 in E.
  exists k, ki. eexists. split; [exact Hk|]. split; [exact K|]. cbv zeta. split; [exact E|].
  assert (F0 : fips_hash q (odd_hash u len) = 0).
  { unfold fips_hash. rewrite LM. destruct (Z.ltb_spec (Z.log2 q + 1) (8 * Z.of_nat len)) as [_|F]; [|clear - F HL; lia]. rewrite V2. apply Z.div_small. split; [apply Z.pow_nonneg; lia|].
    apply Z.pow_lt_mono_r; [reflexivity|clear - HL; lia|]. clear - LU HL. lia. }
  rewrite F0. set (r := (g ^ k mod p) mod q). clearbody r. clear - K Q2. intro E. apply divide_mod_eq in E; [|lia]. replace ((x * r + 1) * ki - (x * r + 0) * ki) with ki in E by ring.
  destruct E as (j & ->). rewrite Z.mul_assoc, Z.mod_mul in K by lia. discriminate K.
Qed.
