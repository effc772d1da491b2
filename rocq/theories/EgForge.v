(** The proofs of C86 and C87: what verification and key agreement do with
    numbers and points nobody checks. *)
From Coq Require Import Znumtheory Zpow_facts.
From Verif Require Import Base BytesSpec Bytes MpiModel MpiMulModel MpiDivModel MpiAlgModel MpiIOModel MpiSpec MpiCanon MpiAlg MpiTextSpec MpiAlg2 MpiIO MpiRand PkModel PkSpec NumTh Pk.
Ltac Zify.zify_post_hook ::= idtac.

(** the forged number and the equation it satisfies *)
Lemma forge_eq p g y z : prime p -> ~ (p | g) -> ~ (p | y) -> 0 <= z ->
  let x := (g * y) mod p in
  let r := x + p * ((- z - x) mod (p - 1)) in
  0 <= r /\ (y ^ r * r ^ z) mod p = g ^ z mod p.
Proof.
  intros P Ng Ny Hz x r. pose proof (prime_ge_2 p P) as P2.
  assert (Hx : 0 <= x < p) by (apply Z.mod_pos_bound; lia).
  assert (Ht : 0 <= (- z - x) mod (p - 1)).
  { destruct (Z.eq_dec p 2) as [->|N]; [change (2 - 1) with 1; rewrite Z.mod_1_r; lia|apply Z.mod_pos_bound; lia]. }
  set (t := (- z - x) mod (p - 1)) in *.
  assert (Hr : 0 <= r) by (unfold r; nia). split; [exact Hr|].
  rewrite (mod_mul (y ^ r) (r ^ z) (y ^ r) (g ^ z * y ^ z) p); [|lia|reflexivity|].
  2:{ rewrite <- Z.pow_mul_l. rewrite (Zpower_mod r z p), (Zpower_mod (g * y) z p) by lia. f_equal. f_equal.
      unfold r. rewrite Z.mul_comm, Z_mod_plus_full. unfold x. apply Zmod_mod. }
  replace (y ^ r * (g ^ z * y ^ z)) with (g ^ z * y ^ (r + z)) by (rewrite Z.pow_add_r by lia; ring).
  rewrite <- (Z.mul_1_r (g ^ z)) at 2. apply mod_mul; [lia|reflexivity|].
  change 1 with (y ^ 0). apply fermat_period; auto; [lia|lia|].
  assert (D : (p - 1 | r + z)).
  { destruct (Z.eq_dec p 2) as [E|N]; [exists (r + z); rewrite E; ring|].
    pose proof (Z.div_mod (- z - x) (p - 1) ltac:(lia)) as DM. fold t in DM. unfold r. set (q := (- z - x) / (p - 1)) in *.
    exists (t - q). clearbody t q x. assert (EZ : z = - ((p - 1) * q + t) - x) by lia. rewrite EZ. ring. }
  destruct D as [c ->]. destruct (Z.eq_dec p 2) as [->|N]; [change (2 - 1) with 1; rewrite !Z.mod_1_r; reflexivity|].
  rewrite Z.mod_mul, Z.mod_0_l by lia. reflexivity.
Qed.
Theorem eg_forge p g y d m : prime p -> ~ (p | g) -> ~ (p | y) -> bytes m -> Z.of_nat (length m) <= count_bytes (ofZ p) ->
  let x := (g * y) mod p in
  eg_verify2 {| eg_p := ofZ p; eg_g := ofZ g; eg_y := ofZ y; eg_d := d |} (ofZ (x + p * ((- be_val m - x) mod (p - 1)))) (ofZ (be_val m)) m = Ok 0.
Proof.
  intros P Ng Ny Hm L x. pose proof (be_val_bound m Hm) as [B _]. destruct (forge_eq p g y (be_val m) P Ng Ny B) as [R E]. fold x in R, E.
  rewrite eg_verify_any_d, eg_verify_eq by auto. rewrite E, Z.eqb_refl. reflexivity.
Qed.

(** a message signed by nobody, every number in its range *)
Lemma exist_eq p g y : prime p -> ~ (p | g) -> ~ (p | y) ->
  let r := (g * y) mod p in let s := (- r) mod (p - 1) in
  0 <= s /\ (y ^ r * r ^ s) mod p = g ^ s mod p.
Proof.
  intros P Ng Ny r s. pose proof (prime_ge_2 p P) as P2.
  assert (Hr : 0 <= r < p) by (apply Z.mod_pos_bound; lia).
  assert (Hs : 0 <= s). { unfold s. destruct (Z.eq_dec p 2) as [->|N]; [change (2 - 1) with 1; rewrite Z.mod_1_r; lia|apply Z.mod_pos_bound; lia]. }
  split; [exact Hs|].
  rewrite (mod_mul (y ^ r) (r ^ s) (y ^ r) (g ^ s * y ^ s) p); [|lia|reflexivity|].
  2:{ rewrite <- Z.pow_mul_l. rewrite (Zpower_mod r s p), (Zpower_mod (g * y) s p) by lia. f_equal. f_equal. unfold r. apply Zmod_mod. }
  replace (y ^ r * (g ^ s * y ^ s)) with (g ^ s * y ^ (r + s)) by (rewrite Z.pow_add_r by lia; ring).
  rewrite <- (Z.mul_1_r (g ^ s)) at 2. apply mod_mul; [lia|reflexivity|].
  change 1 with (y ^ 0). apply fermat_period; auto; [lia|lia|].
  destruct (Z.eq_dec p 2) as [->|N]; [change (2 - 1) with 1; rewrite !Z.mod_1_r; reflexivity|].
  unfold s. rewrite Zplus_mod_idemp_r. replace (r + - r) with 0 by ring. reflexivity.
Qed.
Lemma load_pad n v : 0 <= v -> (v < 256 ^ Z.of_nat n) -> load_bin false (be_bytes n v) = ofZ v.
Proof. intros H L. rewrite load_bin_ofZ by apply be_bytes_bytes. rewrite be_val_bytes, Z.mod_small by lia. reflexivity. Qed.
Lemma halves (L : nat) (A B : list Z) : length A = L -> length B = L -> firstn L (A ++ B) = A /\ firstn L (skipn L (A ++ B)) = B.
Proof.
  intros EA EB. rewrite firstn_app, skipn_app, EA, Nat.sub_diag. cbn [firstn skipn]. rewrite app_nil_r. split; [rewrite <- EA; apply firstn_all|].
  rewrite <- EA at 2. rewrite skipn_all. cbn [app]. rewrite <- EB. apply firstn_all.
Qed.
Theorem eg_exist p g y d : prime p -> ~ (p | g) -> ~ (p | y) ->
  let L := Z.to_nat (count_bytes (ofZ p)) in let r := (g * y) mod p in let s := (- r) mod (p - 1) in
  eg_verify {| eg_p := ofZ p; eg_g := ofZ g; eg_y := ofZ y; eg_d := d |} (be_bytes L r ++ be_bytes L s) (be_bytes L s) = Ok 0.
Proof.
  intros P Ng Ny L r s. pose proof (prime_ge_2 p P) as P2. destruct (exist_eq p g y P Ng Ny) as [Hs E]. fold r in Hs, E. fold s in Hs, E.
  assert (Hr : 0 <= r < p) by (apply Z.mod_pos_bound; lia).
  assert (Ls : s < p). { unfold s in *. destruct (Z.eq_dec p 2) as [->|N]; [change (2 - 1) with 1; rewrite Z.mod_1_r; lia|]. pose proof (Z.mod_pos_bound (- r) (p - 1) ltac:(lia)). lia. }
  destruct (canon_ofZ p) as [W _]. destruct (count_bytes_nonneg (ofZ p) W) as (C0 & C1 & _). rewrite mval_ofZ, Z.abs_eq in C1 by lia.
  assert (PL : p < 256 ^ Z.of_nat L) by (unfold L; rewrite Z2Nat.id by lia; exact C1).
  unfold eg_verify. cbn [eg_p]. fold L. rewrite app_length, !be_bytes_length.
  rewrite Nat.ltb_irrefl. 
  destruct (halves L _ _ (be_bytes_length L r) (be_bytes_length L s)) as [-> ->].
  assert (LL : Z.of_nat L <= count_bytes (ofZ p)) by (unfold L; rewrite Z2Nat.id by lia; lia).
  assert (R1 : r < 256 ^ Z.of_nat L) by (apply Z.lt_trans with p; [apply Hr|exact PL]). assert (S1 : s < 256 ^ Z.of_nat L) by (apply Z.lt_trans with p; assumption).
  clearbody L r s. rewrite (load_pad L r (proj1 Hr) R1), (load_pad L s Hs S1).
  rewrite eg_verify_any_d, (eg_verify_eq p g y r s (be_bytes L s) P (proj1 Hr) Hs); [|apply be_bytes_bytes|rewrite be_bytes_length; exact LL].
  rewrite be_val_bytes, (Z.mod_small s) by (split; assumption). rewrite E, Z.eqb_refl. reflexivity.
Qed.
(** the message enters as a number, in the exponent *)
Theorem eg_same p g y d r s m m' : prime p -> ~ (p | g) -> 0 <= r -> 0 <= s -> bytes m -> bytes m' ->
  Z.of_nat (length m) <= count_bytes (ofZ p) -> Z.of_nat (length m') <= count_bytes (ofZ p) -> be_val m mod (p - 1) = be_val m' mod (p - 1) ->
  eg_verify2 {| eg_p := ofZ p; eg_g := ofZ g; eg_y := ofZ y; eg_d := d |} (ofZ r) (ofZ s) m =
  eg_verify2 {| eg_p := ofZ p; eg_g := ofZ g; eg_y := ofZ y; eg_d := d |} (ofZ r) (ofZ s) m'.
Proof.
  intros P N Hr Hs Hm Hm' L L' E. 
  rewrite (eg_verify_any_d (ofZ p) _ _ d _ _ m), (eg_verify_any_d (ofZ p) _ _ d _ _ m'). rewrite (eg_verify_eq p g y r s m P Hr Hs Hm L), (eg_verify_eq p g y r s m' P Hr Hs Hm' L'). pose proof (be_val_bound m Hm). pose proof (be_val_bound m' Hm').
  rewrite (fermat_period p g (be_val m) (be_val m')) by (auto; lia). reflexivity.
Qed.

(** * Diffie-Hellman *)
Lemma dh_final_eq p g e Y z : 1 < p -> 0 <= e ->
  dh_finalize {| dh_p := ofZ p; dh_g := g; dh_e := ofZ e; dh_Y := ofZ Y; dh_Z := z |} =
  Ok {| dh_p := ofZ p; dh_g := g; dh_e := ofZ e; dh_Y := ofZ Y; dh_Z := ofZ (Y ^ e mod p) |}.
Proof. intros Hp He. unfold dh_finalize. cbn [dh_p dh_g dh_e dh_Y dh_Z]. rewrite mod_exp_ofZ by auto. reflexivity. Qed.
Lemma dh_weak p e Y m : 1 < p -> 0 <= e -> 0 < m -> Y ^ m mod p = 1 -> Y ^ e mod p = Y ^ (e mod m) mod p.
Proof. intros Hp He Hm E. apply (pow_period Y m p e (e mod m) Hp Hm E He); [apply Z.mod_pos_bound; lia|rewrite Zmod_mod; reflexivity]. Qed.
(** the exponent modulo the prime order of Y follows from the result *)
Lemma dh_leak p Y m e e' : 1 < p -> prime m -> Y ^ m mod p = 1 -> Y mod p <> 1 -> 0 <= e -> 0 <= e' ->
  Y ^ e mod p = Y ^ e' mod p -> e mod m = e' mod m.
Proof.
  assert (K : forall e e', 1 < p -> prime m -> Y ^ m mod p = 1 -> Y mod p <> 1 -> 0 <= e -> 0 <= e' -> e mod m <= e' mod m -> Y ^ e mod p = Y ^ e' mod p -> e mod m = e' mod m).
  2:{ intros. destruct (Z_le_gt_dec (e mod m) (e' mod m)) as [L|L]; [apply K; auto|]. symmetry. apply K; auto. lia. }
  clear e e'. intros e e' Hp Pm E N He He' L Q. pose proof (prime_ge_2 m Pm) as M2.
  rewrite (dh_weak p e Y m), (dh_weak p e' Y m) in Q by (auto; lia).
  pose proof (Z.mod_pos_bound e m ltac:(lia)) as B. pose proof (Z.mod_pos_bound e' m ltac:(lia)) as B'.
  set (u := e mod m) in *. set (v := e' mod m) in *. clearbody u v. destruct (Z.eq_dec u v) as [|D]; [auto|exfalso].
  (* Y^(v-u) = 1 *)
  assert (O : Y ^ (v - u) mod p = 1).
  { assert (S : (Y ^ (v - u) * (Y ^ u * Y ^ (m - u))) mod p = (1 * (Y ^ u * Y ^ (m - u))) mod p).
    { rewrite Z.mul_assoc, <- Z.pow_add_r by lia. replace (v - u + u) with v by ring. rewrite Z.mul_1_l. apply mod_mul; [lia|auto|reflexivity]. }
    rewrite <- Z.pow_add_r in S by lia. replace (u + (m - u)) with m in S by ring. rewrite <- Z.mul_mod_idemp_r in S by lia. rewrite E, Z.mul_1_r in S.
    rewrite S, Z.mul_1_l. exact E. }
  (* 1 = a (v-u) + b m *)
  assert (G : rel_prime m (v - u)) by (apply (prime_rel_prime m Pm); intros DD; apply Z.divide_pos_le in DD; clear - DD D L B B'; lia).
  destruct (rel_prime_bezout _ _ G) as [a b Bz].
  assert (A0 : 0 <= b mod m) by (apply Z.mod_pos_bound; lia).
  apply N. transitivity (Y ^ ((v - u) * (b mod m)) mod p).
  - transitivity (Y ^ 1 mod p); [rewrite Z.pow_1_r; reflexivity|].
    apply (pow_period Y m p 1 _ Hp ltac:(clear - M2; lia) E ltac:(lia)); [apply Z.mul_nonneg_nonneg; [clear - L; lia|exact A0]|].
    rewrite Z.mul_mod_idemp_r by lia. replace ((v - u) * b) with (1 + (- a) * m) by (clear - Bz; lia). rewrite Z_mod_plus_full. reflexivity.
  - rewrite Z.pow_mul_r by (clear - L A0; lia). rewrite Zpower_mod by (clear - Hp; lia). rewrite O, Z.pow_1_l by exact A0. apply Z.mod_small. clear - Hp; lia.
Qed.

(** for r in its range and g a primitive root, acceptance is the signing equation *)
Lemma root_inj p g a b : prime p -> (forall e, 0 <= e -> g ^ e mod p = 1 -> (p - 1 | e)) -> ~ (p | g) -> 0 <= a -> 0 <= b -> g ^ a mod p = g ^ b mod p -> a mod (p - 1) = b mod (p - 1).
Proof.
  intros P R N. assert (K : forall a b, 0 <= a <= b -> g ^ a mod p = g ^ b mod p -> a mod (p - 1) = b mod (p - 1)).
  2:{ intros Ha Hb E. destruct (Z_le_gt_dec a b) as [L|L]; [apply K; [clear - Ha L; lia|exact E]|]. symmetry. apply K; [clear - Hb L; lia|symmetry; exact E]. }
  clear a b. intros a b Hab E. pose proof (prime_ge_2 p P) as P2.
  assert (D : (p | g ^ a * (g ^ (b - a) - 1))).
  { apply Zmod_divide; [clear - P2; lia|]. replace (g ^ a * (g ^ (b - a) - 1)) with (g ^ b - g ^ a).
    - rewrite Zminus_mod, E, Z.sub_diag. apply Zmod_0_l.
    - replace b with (a + (b - a)) at 1 by ring. rewrite Z.pow_add_r by (clear - Hab; lia). ring. }
  apply prime_mult in D; [|exact P]. destruct D as [D|D].
  { exfalso. pose proof (rel_prime_Zpower_r a p g (proj1 Hab) (prime_rel_prime p P g N)) as [_ _ GG]. specialize (GG p (Z.divide_refl p) D). apply Z.divide_pos_le in GG; clear - GG P2; lia. }
  assert (O : g ^ (b - a) mod p = 1).
  { destruct D as [c D]. replace (g ^ (b - a)) with (1 + c * p) by (rewrite <- D; ring). rewrite Z_mod_plus_full. apply Z.mod_1_l. clear - P2; lia. }
  apply R in O; [|clear - Hab; lia]. destruct O as [c O]. replace b with (a + c * (p - 1)) by (clear - O; lia). rewrite Z_mod_plus_full. reflexivity.
Qed.
Theorem eg_signing p g d k s m c : prime p -> (forall e, 0 <= e -> g ^ e mod p = 1 -> (p - 1 | e)) -> ~ (p | g) -> 0 <= d -> 0 <= k -> 0 <= s -> bytes m -> Z.of_nat (length m) <= count_bytes (ofZ p) ->
  let r := g ^ k mod p in
  eg_verify2 {| eg_p := ofZ p; eg_g := ofZ g; eg_y := ofZ (g ^ d mod p); eg_d := c |} (ofZ r) (ofZ s) m = Ok 0 <-> (d * r + k * s) mod (p - 1) = be_val m mod (p - 1).
Proof.
  intros P R N Hd Hk Hs Hm L r. pose proof (prime_ge_2 p P) as P2. pose proof (be_val_bound m Hm) as [B _].
  assert (Hr : 0 <= r) by (apply Z.mod_pos_bound; clear - P2; lia).
  rewrite eg_verify_any_d, eg_verify_eq by auto.
  assert (E : ((g ^ d mod p) ^ r * r ^ s) mod p = g ^ (d * r + k * s) mod p).
  { rewrite Z.pow_add_r by (apply Z.mul_nonneg_nonneg; assumption). apply mod_mul; [clear - P2; lia| |].
    - rewrite pow_mod, <- Z.pow_mul_r by (try assumption; clear - P2; lia). reflexivity.
    - unfold r. rewrite pow_mod, <- Z.pow_mul_r by (try assumption; clear - P2; lia). reflexivity. }
  rewrite E. assert (S0 : 0 <= d * r + k * s) by (apply Z.add_nonneg_nonneg; apply Z.mul_nonneg_nonneg; assumption).
  destruct (Z.eqb_spec (g ^ (d * r + k * s) mod p) (g ^ be_val m mod p)) as [X|X].
  - split; [|reflexivity]. intros _. exact (root_inj p g _ _ P R N S0 B X).
  - split; [discriminate|]. intro Y. exfalso. apply X. apply fermat_period; auto.
Qed.
Lemma dh_trivial p g e z : 1 < p -> 0 < e ->
  dh_finalize {| dh_p := ofZ p; dh_g := g; dh_e := ofZ e; dh_Y := ofZ 1; dh_Z := z |} = Ok {| dh_p := ofZ p; dh_g := g; dh_e := ofZ e; dh_Y := ofZ 1; dh_Z := ofZ 1 |} /\
  dh_finalize {| dh_p := ofZ p; dh_g := g; dh_e := ofZ e; dh_Y := ofZ 0; dh_Z := z |} = Ok {| dh_p := ofZ p; dh_g := g; dh_e := ofZ e; dh_Y := ofZ 0; dh_Z := ofZ 0 |}.
Proof.
  intros Hp He. rewrite !dh_final_eq by lia. rewrite Z.pow_1_l by lia. rewrite Z.mod_1_l by lia. rewrite Z.pow_0_l by lia. rewrite Z.mod_0_l by lia. split; reflexivity.
Qed.
Lemma dh_small p g Y q z : 1 < p -> prime q -> Y ^ q mod p = 1 -> Y mod p <> 1 ->
  (forall e, 0 <= e -> dh_finalize {| dh_p := ofZ p; dh_g := g; dh_e := ofZ e; dh_Y := ofZ Y; dh_Z := z |} =
    Ok {| dh_p := ofZ p; dh_g := g; dh_e := ofZ e; dh_Y := ofZ Y; dh_Z := ofZ (Y ^ (e mod q) mod p) |}) /\
  (forall e e', 0 <= e -> 0 <= e' -> Y ^ e mod p = Y ^ e' mod p -> e mod q = e' mod q).
Proof.
  intros Hp Pq E N. pose proof (prime_ge_2 q Pq) as Q2. split.
  - intros e He. rewrite dh_final_eq by assumption. rewrite (dh_weak p e Y q Hp He ltac:(clear - Q2; lia) E). reflexivity.
  - intros e e' He He' Q. exact (dh_leak p Y q e e' Hp Pq E N He He' Q).
Qed.
