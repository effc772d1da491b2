(** Proofs for PropText.v: what the textual import accepts. *)
From Verif Require Import Base Bits BytesSpec Bytes MpiModel MpiSpec MpiDigits MpiMulModel MpiMul MpiMul2 MpiCanon MpiDivModel MpiAlgModel MpiIOModel MpiIO MpiTextSpec MpiIO2 TextSpec.

Lemma char_low c : -1 <= char_val c <= 35.
Proof.
  unfold char_val. destruct ((48 <=? c) && (c <=? 57))%bool eqn:E1; [lia|].
  destruct ((97 <=? c) && (c <=? 122))%bool eqn:E2; [lia|]. destruct ((65 <=? c) && (c <=? 90))%bool eqn:E3; lia.
Qed.
Lemma asc_max c : asc_to_raw c = Z.max 0 (char_val c).
Proof.
  unfold asc_to_raw, char_val. destruct ((48 <=? c) && (c <=? 57))%bool eqn:E1; [lia|].
  destruct ((97 <=? c) && (c <=? 122))%bool eqn:E2; [lia|]. destruct ((65 <=? c) && (c <=? 90))%bool eqn:E3; lia.
Qed.
Lemma zeroed_val c : char_val (zeroed c) = asc_to_raw c.
Proof.
  rewrite asc_max. unfold zeroed. assert (H := char_low c). destruct (Z.eqb_spec (char_val c) (-1)) as [->|N]; [reflexivity|lia].
Qed.
Lemma zeroed_asc c : asc_to_raw (zeroed c) = asc_to_raw c.
Proof. rewrite asc_max, zeroed_val, asc_max. lia. Qed.
Lemma zeroed_digits r s : 0 < r -> Forall (fun c => char_val c < r) s -> Forall (valid_digit r) (map zeroed s).
Proof.
  intros Hr. induction 1 as [|c s H _ IH]; [constructor|]. constructor; [|exact IH]. unfold valid_digit. rewrite zeroed_val, asc_max. lia.
Qed.
Lemma zeroed_id r s : Forall (valid_digit r) s -> map zeroed s = s.
Proof.
  induction 1 as [|c s H _ IH]; [reflexivity|]. cbn [map]. rewrite IH. unfold valid_digit in H. unfold zeroed. destruct (Z.eqb_spec (char_val c) (-1)); [lia|reflexivity].
Qed.

(** a number, or a zero that has a digit *)
Definition rep (v : Z) (a : mpi) : Prop := a = ofZ v \/ v = 0 /\ a = mkmpi false [0].
Lemma rep_mval v a : rep v a -> mval a = v.
Proof. intros [->|[-> ->]]; [apply mval_ofZ|reflexivity]. Qed.
Lemma mul_rep r v a : 2 <= r <= 36 -> rep v a -> mul (neg a) a (ofZ r) = Ok (ofZ (v * r)).
Proof.
  intros Hr [->|[-> ->]]; [apply mul_ofZ|].
  assert (E : In r (map Z.of_nat (seq 2 35))) by (replace r with (Z.of_nat (Z.to_nat r)) by lia; apply in_map, in_seq; lia).
  revert E. apply (proj1 (Forall_forall (fun r => mul (neg (mkmpi false [0])) (mkmpi false [0]) (ofZ r) = Ok (ofZ (0 * r))) _)).
  cbn [seq map]. repeat (constructor; [vm_compute; reflexivity|]). constructor.
Qed.
Lemma add_rep v d : 0 <= v -> 0 <= d <= 35 -> exists a, add (ofZ v) (mkmpi false [d]) = Ok a /\ rep (v + d) a.
Proof.
  intros Hv Hd. destruct (Z.eq_dec d 0) as [->|N].
  - rewrite Z.add_0_r. destruct (Z.eq_dec v 0) as [->|Nv].
    + exists (mkmpi false [0]). split; [vm_compute; reflexivity|]. right. auto.
    + exists (ofZ v). split; [apply add_zero_digit; lia|]. left. reflexivity.
  - exists (ofZ (v + d)). split; [|left; reflexivity]. rewrite one_digit by (unfold B; lia). apply add_ofZ.
Qed.
Lemma load_rep r : 2 <= r <= 36 -> forall s v a, 0 <= v -> rep v a -> Forall (fun c => char_val c < r) s ->
  exists a', load_digits r (ofZ r) a s = Ok a' /\ rep (v * r ^ Z.of_nat (length s) + num_val r (map zeroed s)) a'.
Proof.
  intro Hr. induction s as [|c s IH]; intros v a Hv Ra Hs; cbn [load_digits].
  - exists a. split; [reflexivity|]. cbn [length map]. change (Z.of_nat 0) with 0. rewrite Z.pow_0_r. change (num_val r []) with 0. replace (v * 1 + 0) with v by lia. exact Ra.
  - inversion_clear Hs as [|? ? Hc Hs']. assert (Lc := char_low c). assert (Ec := asc_max c).
    destruct (Z.leb_spec r (asc_to_raw c)); [lia|]. rewrite (mul_rep r v a Hr Ra). cbn [bind].
    destruct (add_rep (v * r) (asc_to_raw c)) as (b & Eb & Rb); [nia|lia|]. rewrite Eb. cbn [bind].
    destruct (IH (v * r + asc_to_raw c) b) as (a' & Ea & R); [nia|exact Rb|exact Hs'|]. exists a'. split; [exact Ea|].
    replace (v * r ^ Z.of_nat (length (c :: s)) + num_val r (map zeroed (c :: s))) with ((v * r + asc_to_raw c) * r ^ Z.of_nat (length s) + num_val r (map zeroed s)); [exact R|].
    cbn [map length]. rewrite num_cons, zeroed_val, map_length, Nat2Z.inj_succ, Z.pow_succ_r by lia. ring.
Qed.
Lemma load_bad r : 2 <= r <= 36 -> forall s v a, 0 <= v -> rep v a -> Exists (fun c => r <= char_val c) s -> load_digits r (ofZ r) a s = Err (-1).
Proof.
  intro Hr. induction s as [|c s IH]; intros v a Hv Ra Hs; [inversion Hs|]. cbn [load_digits]. assert (Ec := asc_max c). assert (Lc := char_low c).
  destruct (Z.leb_spec r (asc_to_raw c)); [reflexivity|]. inversion Hs as [? ? H'|? ? H']; subst; [lia|].
  rewrite (mul_rep r v a Hr Ra). cbn [bind]. destruct (add_rep (v * r) (asc_to_raw c)) as (b & Eb & Rb); [nia|lia|]. rewrite Eb. cbn [bind].
  apply (IH (v * r + asc_to_raw c)); [nia|exact Rb|exact H'].
Qed.
Lemma skip_zeroed r s : num_val r (map zeroed (skip_chars0 s)) = num_val r (map zeroed s).
Proof.
  induction s as [|c s IH]; [reflexivity|]. cbn [skip_chars0]. destruct (Z.eqb_spec c 48) as [->|N]; [|reflexivity].
  rewrite IH. cbn [map]. rewrite num_cons, zeroed_val. change (asc_to_raw 48) with 0. lia.
Qed.
Lemma skip_forall r s : 0 < r -> Forall (fun c => char_val c < r) s -> Forall (fun c => char_val c < r) (skip_chars0 s).
Proof. intro Hr. induction 1 as [|c s H F IH]; [constructor|]. cbn [skip_chars0]. destruct (c =? 48); [exact IH|]. constructor; auto. Qed.
Lemma skip_exists r s : 0 < r -> Exists (fun c => r <= char_val c) s -> Exists (fun c => r <= char_val c) (skip_chars0 s).
Proof.
  intro Hr. induction 1 as [c s H|c s H IH]; cbn [skip_chars0]; destruct (Z.eqb_spec c 48) as [->|N].
  - change (char_val 48) with 0 in H. lia.
  - apply Exists_cons_hd. exact H.
  - exact IH.
  - apply Exists_cons_tl. exact H.
Qed.

(** sign and body *)
Definition magn (r : Z) (s : list Z) : res mpi := if r =? 16 then Ok (load_str_hex s) else do base <- set_int r; load_digits r base mzero (skip_chars0 s).
Lemma load_parts r s : r <= 36 -> load_str r s = do a <- magn r (body s); Ok (set_sign (if is_zero a then false else minus s) a).
Proof.
  intro H. unfold load_str. destruct (Z.ltb_spec 36 r); [lia|]. unfold minus, body, magn. destruct s as [|c s]; [reflexivity|].
  destruct (Z.eqb_spec c 45) as [->|N]; [reflexivity|]. destruct (Z.eqb_spec c 43) as [->|N']; reflexivity.
Qed.
Lemma magn_dec r s : 2 <= r <= 36 -> r <> 16 -> Forall (fun c => char_val c < r) s -> exists a, magn r s = Ok a /\ rep (num_val r (map zeroed s)) a.
Proof.
  intros Hr N F. unfold magn. destruct (Z.eqb_spec r 16); [contradiction|]. rewrite set_int_ofZ by lia. cbn [bind].
  destruct (load_rep r Hr (skip_chars0 s) 0 mzero) as (a & E & R); [lia|left; reflexivity|apply skip_forall; [lia|exact F]|]. exists a. split; [exact E|].
  rewrite skip_zeroed in R. exact R.
Qed.
Lemma magn_bad r s : 2 <= r <= 36 -> r <> 16 -> Exists (fun c => r <= char_val c) s -> magn r s = Err (-1).
Proof.
  intros Hr N F. unfold magn. destruct (Z.eqb_spec r 16); [contradiction|]. rewrite set_int_ofZ by lia. cbn [bind].
  apply (load_bad r Hr (skip_chars0 s) 0 mzero); [lia|left; reflexivity|apply skip_exists; [lia|exact F]].
Qed.
Lemma hex_zeroed s : load_str_hex (map zeroed s) = load_str_hex s.
Proof.
  assert (P : forall n s, (length s <= n)%nat -> hex_pairs (map zeroed s) = hex_pairs s).
  { induction n as [|n IH]; intros t L; [destruct t; [reflexivity|cbn [length] in L; lia]|].
    destruct t as [|a [|b t]]; try reflexivity. cbn [map hex_pairs]. rewrite !zeroed_asc, IH; [reflexivity|cbn [length] in L; lia]. }
  unfold load_str_hex. rewrite map_length, (P _ s (le_n _)). destruct s as [|c s]; [reflexivity|]. cbn [map]. rewrite zeroed_asc, (P _ s (le_n _)). reflexivity.
Qed.
Lemma magn_hex s : Forall (fun c => char_val c < 16) s -> magn 16 s = Ok (ofZ (num_val 16 (map zeroed s))).
Proof.
  intro F. unfold magn. rewrite Z.eqb_refl, <- hex_zeroed. f_equal. apply load_str_hex_ok. apply zeroed_digits; [lia|exact F].
Qed.
Lemma sign_val a v sg : rep v a -> 0 <= v -> mval (set_sign (if is_zero a then false else sg) a) = if sg then - v else v.
Proof.
  intros [->|[-> ->]] H; [rewrite set_sign_ofZ by exact H; apply mval_ofZ|destruct sg; reflexivity].
Qed.

(** * The statements *)
Lemma text_exact r s : 2 <= r <= 36 -> r <> 16 ->
  (Forall (fun c => char_val c < r) (body s) -> exists a, load_str r s = Ok a /\ mval a = (if minus s then - num_val r (map zeroed (body s)) else num_val r (map zeroed (body s)))) /\
  (Exists (fun c => r <= char_val c) (body s) -> load_str r s = Err (-1)).
Proof.
  intros Hr N. rewrite load_parts by lia. split; intro F.
  - destruct (magn_dec r (body s) Hr N F) as (a & E & R). rewrite E. cbn [bind]. eexists. split; [reflexivity|]. apply sign_val; [exact R|].
    apply num_nonneg; [lia|]. apply zeroed_digits; [lia|exact F].
  - rewrite (magn_bad r (body s) Hr N F). reflexivity.
Qed.
Lemma text_hex s : Forall (fun c => char_val c < 16) (body s) ->
  load_str 16 s = Ok (ofZ (if minus s then - num_val 16 (map zeroed (body s)) else num_val 16 (map zeroed (body s)))).
Proof.
  intro F. rewrite load_parts by lia. rewrite (magn_hex _ F). cbn [bind]. rewrite set_sign_ofZ; [reflexivity|]. apply num_nonneg; [lia|]. apply zeroed_digits; [lia|exact F].
Qed.
Lemma text_numeral r s : 2 <= r <= 36 -> Forall (valid_digit r) (body s) -> load_str r s = Ok (ofZ (text_val r s)).
Proof.
  intros Hr V. rewrite load_parts by lia. unfold magn. rewrite load_unsigned by assumption. cbn [bind].
  rewrite set_sign_ofZ by (apply num_nonneg; [lia|exact V]). reflexivity.
Qed.
Lemma text_hex_all s : exists a, load_str 16 s = Ok a.
Proof. rewrite load_parts by lia. unfold magn. rewrite Z.eqb_refl. cbn [bind]. eexists. reflexivity. Qed.
Lemma text_letters r s : 2 <= r <= 36 -> r <> 16 -> c_string s -> body s <> [] -> Forall (fun c => ~ other_char c) (body s) ->
  (exists a, load_str r s = Ok a) <-> numeral r s.
Proof.
  intros Hr N Cs Nb L. split.
  - intros [a E]. split; [exact Nb|]. apply Forall_forall. intros c Hc. assert (Lc := char_low c). assert (Oc := proj1 (Forall_forall _ _) L c Hc). cbv beta in Oc.
    assert (c <> 0) by (intros ->; apply Cs; clear - Hc; destruct s as [|d s]; [exact Hc|]; cbn [body] in Hc; destruct ((d =? 45) || (d =? 43))%bool; [right; exact Hc|exact Hc]).
    assert (char_val c <> -1) by (intro; apply Oc; split; assumption).
    unfold valid_digit. destruct (Z.lt_ge_cases (char_val c) r); [lia|]. exfalso.
    rewrite (proj2 (text_exact r s Hr N)) in E; [discriminate|]. apply Exists_exists. exists c. split; [exact Hc|assumption].
  - intros [_ V]. eexists. apply text_numeral; assumption.
Qed.
Lemma text_other r s c t : 2 <= r <= 36 -> s <> [] -> Forall (valid_digit r) s -> Forall (valid_digit r) t -> other_char c ->
  exists a, load_str r (s ++ c :: t) = Ok a /\ mval a = num_val r (s ++ 48 :: t).
Proof.
  intros Hr Ns Vs Vt O. destruct s as [|d s]; [congruence|]. assert (Vd := Forall_inv Vs). destruct (digit_not_sign r d Vd) as [E1 E2].
  assert (Bd : body ((d :: s) ++ c :: t) = (d :: s) ++ c :: t /\ minus ((d :: s) ++ c :: t) = false) by (unfold body, minus; cbn [app]; rewrite E1, E2; auto).
  destruct Bd as [B1 B2].
  assert (Z0 : map zeroed ((d :: s) ++ c :: t) = (d :: s) ++ 48 :: t).
  { rewrite map_app, (zeroed_id r (d :: s) Vs). cbn [map]. rewrite (zeroed_id r t Vt). unfold zeroed. rewrite (proj1 O). reflexivity. }
  assert (F : Forall (fun c => char_val c < r) ((d :: s) ++ c :: t)).
  { apply Forall_app. split; [|constructor; [destruct O; lia|]]; eapply Forall_impl; try eassumption; intros x Hx; unfold valid_digit in Hx; lia. }
  destruct (Z.eq_dec r 16) as [->|N].
  - assert (T := text_hex ((d :: s) ++ c :: t)). rewrite B1, B2, Z0 in T. eexists. split; [exact (T F)|apply mval_ofZ].
  - assert (T := text_exact r ((d :: s) ++ c :: t) Hr N). rewrite B1, B2, Z0 in T. exact (proj1 T F).
Qed.
(** a zero that does not look like one *)
Lemma text_zero r c : 2 <= r <= 36 -> r <> 16 -> other_char c -> c <> 43 -> c <> 45 ->
  load_str r [c] = Ok (mkmpi false [0]) /\ load_str r [45; c] = Ok (mkmpi true [0]).
Proof.
  intros Hr N O N1 N2. rewrite !load_parts by lia. unfold body, minus. change ((45 =? 45) || (45 =? 43))%bool with true. cbv iota.
  apply Z.eqb_neq in N1, N2. rewrite N1, N2. cbn [orb]. cbv iota.
  assert (M : magn r [c] = Ok (mkmpi false [0])).
  { unfold magn. destruct (Z.eqb_spec r 16); [contradiction|]. rewrite set_int_ofZ by lia. cbn [bind skip_chars0].
    destruct (Z.eqb_spec c 48) as [->|]; [destruct O; discriminate|]. cbn [load_digits]. rewrite asc_max, (proj1 O). change (Z.max 0 (-1)) with 0.
    destruct (Z.leb_spec r 0); [lia|]. rewrite (mul_rep r 0 mzero Hr (or_introl eq_refl)). reflexivity. }
  rewrite M. split; reflexivity.
Qed.
Lemma zero_endless f v c k : 0 < v -> div_top f (ofZ v) (shld (shl (mkmpi false [0]) 63) k) c = Fuel.
Proof.
  intro H. assert (E : shld (shl (mkmpi false [0]) 63) k = ofZ 0) by (change (shl (mkmpi false [0]) 63) with mzero; unfold shld; cbn [is_zero dg mzero orb]; rewrite ?orb_true_r; reflexivity).
  rewrite E. revert c. induction f as [|f IH]; intro c; cbn [div_top]; rewrite cmp_ofZ, Z.sub_0_r, (Z.sgn_pos v H); [reflexivity|].
  change (1 =? -1) with false. cbv iota. rewrite sub_ofZ, Z.sub_0_r. cbn [bind]. apply IH.
Qed.
Lemma zero_div v sg : 0 < v -> div_abs (ofZ v) (mkmpi sg [0]) = Fuel.
Proof.
  intro H. unfold div_abs. cbn [is_zero dg].
  assert (C : (cmp_abs (ofZ v) (mkmpi sg [0]) <? 0) = false).
  { assert (V := ofZ_val v). assert (D := canon_ofZ v). destruct D as [[D _] _]. unfold cmp_abs, used. cbn [dg length].
    destruct (dg (ofZ v)) as [|x [|y l]]; [cbn in V; lia| |reflexivity]. apply digits_cons in D as [Dx _]. cbn [length Nat.ltb Nat.leb cmp_digs].
    destruct (Z.ltb_spec x 0); [lia|]. destruct (0 <? x); reflexivity. }
  rewrite C. change (count_bits (mkmpi false [0])) with 0. change (0 mod 64) with 0. change (0 <? 63) with true. cbv iota zeta. change (63 - 0) with 63. change (63 =? 0) with false. cbv iota.
  assert (X : mkmpi false (dg (ofZ v)) = ofZ v).
  { assert (N := ofZ_neg v). destruct (ofZ v) as [n l]. cbn [neg dg] in *. subst n. destruct (Z.ltb_spec v 0); [lia|reflexivity]. }
  rewrite X, shl_ofZ by lia. rewrite zero_endless by lia. reflexivity.
Qed.
Lemma text_lone r c : 2 <= r <= 36 -> r <> 16 -> other_char c -> c <> 43 -> c <> 45 ->
  exists z, load_str r [c] = Ok z /\ mval z = 0 /\ is_zero z = false /\ forall v, 0 < v -> div_abs (ofZ v) z = Fuel.
Proof.
  intros. exists (mkmpi false [0]). split; [apply text_zero; assumption|]. split; [reflexivity|]. split; [reflexivity|]. intro v. apply zero_div.
Qed.
Lemma text_minus r c : 2 <= r <= 36 -> r <> 16 -> other_char c -> c <> 43 -> c <> 45 ->
  exists z, load_str r [45; c] = Ok z /\ mval z = 0 /\ cmp z mzero = -1.
Proof. intros. exists (mkmpi true [0]). split; [apply text_zero; assumption|]. split; reflexivity. Qed.
Lemma text_empty r s : 2 <= r <= 36 -> body s = [] -> load_str r s = Ok mzero.
Proof.
  intros Hr E. rewrite text_numeral; [|exact Hr|rewrite E; constructor]. unfold text_val. rewrite E. destruct (minus s); reflexivity.
Qed.
