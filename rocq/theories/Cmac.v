(** CMAC: the incremental computation is RFC 4493's. *)
From Verif Require Import Base Bits BytesSpec Bytes Lists Modes GcmModel GcmSpec.

(** * Subkeys *)
Lemma shl_val l : bytes l -> bytes (cmac_shl l) /\ length (cmac_shl l) = length l /\
  be_val (cmac_shl l) = (2 * be_val l) mod 256 ^ Z.of_nat (length l).
Proof.
  intro H. induction H as [|b l Hb Hl IH]; [repeat split; constructor|].
  destruct l as [|c r].
  - cbn [cmac_shl length]. refine (conj _ (conj eq_refl _)).
    + constructor; auto. unfold byte. apply Z.mod_pos_bound. lia.
    + unfold be_val. cbn [fold_left]. change (256 ^ Z.of_nat 1) with 256. reflexivity.
  - destruct IH as (IB & IL & IV).
    change (cmac_shl (b :: c :: r)) with ((if Z.land c 128 =? 0 then (2 * b) mod 256 else Z.lor ((2 * b) mod 256) 1) :: cmac_shl (c :: r)).
    set (h := if Z.land c 128 =? 0 then _ else _).
    assert (Hc : byte c) by (inversion Hl; auto).
    assert (E : h = (2 * b + c / 128) mod 256).
    { unfold h. assert (X : Z.land c 128 = 128 * (c / 128)).
      { assert (C : forallb (fun n => Z.eqb (Z.land (Z.of_nat n) 128) (128 * (Z.of_nat n / 128))) (seq 0 256) = true) by (vm_compute; reflexivity).
        pose proof (proj1 (forallb_forall _ _) C (Z.to_nat c)) as G. cbv beta in G. unfold byte in Hc. rewrite Z2Nat.id in G by lia.
        apply Z.eqb_eq, G, in_seq. lia. }
      rewrite X. clear h X. assert (Q : c / 128 = 0 \/ c / 128 = 1) by (unfold byte in Hc; Z.div_mod_to_equations; lia).
      assert (R : (2 * b) mod 256 = ((2 * b) mod 256 / 2) * 2 ^ 1).
      { change (2 ^ 1) with 2. Z.div_mod_to_equations; lia. }
      destruct Q as [-> | ->].
      - change (128 * 0 =? 0) with true. cbv iota. rewrite Z.add_0_r. reflexivity.
      - change (128 * 1 =? 0) with false. cbv iota. rewrite R, lor_shifted_small by lia. rewrite <- R. clear R. Z.div_mod_to_equations; lia. }
    rewrite E. clearbody h. clear E h.
    refine (conj _ (conj _ _)).
    + constructor; auto. unfold byte. apply Z.mod_pos_bound. lia.
    + cbn [length] in *. lia.
    + rewrite !(be_val_cons _ (cmac_shl _)), IL, IV. rewrite (be_val_cons b). set (L := c :: r) in *.
      cbn [length]. rewrite pow256_S. set (P := 256 ^ Z.of_nat (length L)).
      assert (HP : 0 < P) by apply pow256_pos.
      pose proof (be_val_bound L Hl) as Bd. fold P in Bd.
      assert (T : (2 * be_val L) / P = c / 128).
      { unfold P, L. rewrite be_val_cons. cbn [length]. rewrite pow256_S.
        assert (Hr : bytes r) by (inversion Hl; auto). pose proof (be_val_bound r Hr) as Br. pose proof (pow256_pos (length r)) as Pr.
        set (W := be_val r) in *. set (Q := 256 ^ Z.of_nat (length r)) in *. clearbody W Q. clear - Br Pr Hc.
        unfold byte in Hc. assert (D : c = 128 * (c / 128) + c mod 128 /\ 0 <= c mod 128 < 128) by (Z.div_mod_to_equations; lia).
        destruct D as [D1 D2]. symmetry. apply Z.div_unique with (2 * ((c mod 128) * Q + W)); [left; nia|]. nia. }
      pose proof (Z.div_mod (2 * be_val L) P ltac:(lia)) as DM. rewrite T in DM.
      replace (2 * (b * P + be_val L)) with (P * (2 * b + c / 128) + (2 * be_val L) mod P) by lia.
      pose proof (Z.mod_pos_bound (2 * be_val L) P HP) as MB. set (t := (2 * be_val L) mod P) in *. clearbody t.
      set (k := 2 * b + c / 128). clearbody k. rewrite (Z.mul_comm 256 P). rewrite Z.rem_mul_r by lia.
      rewrite Z.mul_comm with (n := P) (m := k). rewrite (Z.add_comm (k * P)), Z_mod_plus_full, Z.div_add, (Z.mod_small t), (Z.div_small t) by lia.
      rewrite Z.add_0_l. lia.
Qed.
Lemma upd_last_xor (s : list Z) : bytes s -> length s = 16%nat ->
  be_val (upd s 15 (Z.lxor (nth 15 s 0) 135)) = Z.lxor (be_val s) 135 /\ bytes (upd s 15 (Z.lxor (nth 15 s 0) 135)).
Proof.
  intros Hb Hl. destruct (@exists_last Z s) as (a & x & ->); [intro; subst; discriminate|].
  rewrite app_length in Hl. cbn in Hl. assert (La : length a = 15%nat) by lia.
  rewrite app_nth2, La by lia. change (nth (15 - 15) [x] 0) with x.
  rewrite <- La, upd_app. rewrite !be_val_snoc. apply bytes_app in Hb as [Ha Hx].
  assert (Bx : byte x) by (inversion Hx; auto).
  split.
  - unfold byte in Bx.
    assert (G : forall u v, 0 <= v < 256 -> 256 * u + v = Z.lor (u * 2 ^ 8) v) by (intros; rewrite lor_shifted_small; lia).
    rewrite (G (be_val a) x), (G _ (Z.lxor x 135)) by (try lia; apply (lxor_bound 8); lia).
    apply Z.bits_inj'. intros i Hi. rewrite Z.lxor_spec, !Z.lor_spec, Z.lxor_spec, !Z.mul_pow2_bits by lia.
    destruct (Z.lt_ge_cases i 8).
    + rewrite Z.testbit_neg_r by lia. reflexivity.
    + rewrite (testbit_small x 8 i), (testbit_small 135 8 i) by lia. rewrite orb_false_r, !xorb_false_r, orb_false_r. reflexivity.
  - apply bytes_app. split; auto. repeat constructor; apply (lxor_bound 8); unfold byte in Bx; lia.
Qed.
Lemma dbl_ok l : bytes l -> length l = 16%nat -> cmac_dbl l = cmac_mul_x l.
Proof.
  intros Hb Hl. destruct (shl_val l Hb) as (SB & SL & SV). unfold cmac_dbl, cmac_mul_x.
  pose proof (be_val_bound l Hb) as Bd. rewrite Hl in *. change (256 ^ Z.of_nat 16) with (2 ^ 128) in *.
  assert (T : (Z.land (nth 0 l 0) 128 =? 0) = (be_val l <? 2 ^ 127)).
  { destruct l as [|b r]; [discriminate|]. cbn [nth]. inversion Hb; subst. rewrite be_val_cons.
    cbn [length] in Hl. assert (Lr : length r = 15%nat) by lia. pose proof (be_val_bound r H2) as Br. rewrite Lr in *.
    change (256 ^ Z.of_nat 15) with (2 ^ 120) in *.
    assert (C : forallb (fun n => Bool.eqb (Z.land (Z.of_nat n) 128 =? 0) (Z.of_nat n <? 128)) (seq 0 256) = true) by (vm_compute; reflexivity).
    pose proof (proj1 (forallb_forall _ _) C (Z.to_nat b)) as G. cbv beta in G. unfold byte in H1. rewrite Z2Nat.id in G by lia.
    rewrite (eqb_prop _ _ (G ltac:(apply in_seq; lia))). clear G C.
    destruct (Z.ltb_spec b 128), (Z.ltb_spec (b * 2 ^ 120 + be_val r) (2 ^ 127)); lia. }
  rewrite T. destruct (Z.ltb_spec (be_val l) (2 ^ 127)).
  - rewrite Z.mod_small in SV by lia. rewrite <- SV. rewrite <- SL. symmetry. apply be_bytes_val; auto.
  - destruct (upd_last_xor _ SB SL) as [U1 U2]. rewrite SV in U1. rewrite <- U1.
    rewrite <- (upd_length (cmac_shl l) 15 (Z.lxor (nth 15 (cmac_shl l) 0) 135)) in SL.
    pose proof (be_bytes_val _ U2) as Q. rewrite SL in Q. symmetry. exact Q.
Qed.
Lemma mul_x_len l : length (cmac_mul_x l) = 16%nat. Proof. apply be_bytes_length. Qed.
Lemma mul_x_bytes l : bytes (cmac_mul_x l). Proof. apply be_bytes_bytes. Qed.

(** * The chaining value *)
Definition mac_fold (E : list Z -> list Z) (x : list Z) (l : list Z) : list Z :=
  fold_left (fun x b => E (xorl x b)) (chunks 16 l) x.
Lemma mac_fold_app E x a b : whole 16 a -> mac_fold E x (a ++ b) = mac_fold E (mac_fold E x a) b.
Proof. intro W. unfold mac_fold. rewrite chunks_whole by (auto; lia). apply fold_left_app. Qed.
Lemma mac_fold_one E x a : length a = 16%nat -> mac_fold E x a = E (xorl x a).
Proof. intro L. unfold mac_fold. rewrite chunks_short by lia. reflexivity. Qed.
Lemma cmac_rounds_ok E n : forall mac data, (16 * n <= length data)%nat ->
  cmac_rounds E n mac data = mac_fold E mac (firstn (16 * n) data).
Proof.
  induction n as [|n IH]; intros mac data H.
  - reflexivity.
  - cbn [cmac_rounds]. rewrite IH by (rewrite skipn_length; lia).
    replace (16 * S n)%nat with (16 + 16 * n)%nat by lia.
    set (a := firstn 16 data). assert (La : length a = 16%nat) by (unfold a; rewrite firstn_length; lia).
    assert (F : firstn (16 + 16 * n) data = a ++ firstn (16 * n) (skipn 16 data)).
    { pose proof (firstn_app (16 + 16 * n) a (skipn 16 data)) as F. unfold a at 1 in F. rewrite firstn_skipn in F. rewrite F, La.
      rewrite (firstn_all2 (n := 16 + 16 * n) a) by lia. do 2 f_equal. lia. }
    rewrite F. fold a.
    rewrite (mac_fold_app E mac a) by (exact (whole_one 16 a La)). rewrite (mac_fold_one E mac a) by auto. reflexivity.
Qed.

(** the context after the message [m] *)
Definition cut (m : list Z) : nat := 16 * (Nat.div (length m + 15) 16 - 1).
Definition cmac_state (E : list Z -> list Z) (m : list Z) : cmac :=
  {| cm_blk := skipn (cut m) m; cm_mac := mac_fold E (repeat 0 16) (firstn (cut m) m) |}.
Lemma cut_pos m : m <> [] -> exists n, cut m = (16 * n)%nat /\ (16 * n < length m <= 16 * n + 16)%nat /\ Nat.div (length m + 15) 16 = S n.
Proof.
  intro H. assert (L : (0 < length m)%nat) by (destruct m; [congruence|cbn; lia]).
  exists ((length m - 1) / 16)%nat. unfold cut. pose proof (Nat.div_mod (length m - 1) 16 ltac:(lia)).
  pose proof (Nat.mod_upper_bound (length m - 1) 16 ltac:(lia)).
  assert (E : ((length m + 15) / 16 = S ((length m - 1) / 16))%nat).
  { replace (length m + 15)%nat with ((length m - 1) + 1 * 16)%nat by lia. rewrite Nat.div_add by lia. lia. }
  rewrite E. repeat split; lia.
Qed.
Lemma cut_uniq m n : (16 * n < length m <= 16 * n + 16)%nat -> cut m = (16 * n)%nat.
Proof. intro H. destruct (cut_pos m) as (k & E & B & _); [intro; subst; cbn in H; lia|]. lia. Qed.
Lemma cut_app_whole a b : whole 16 a -> b <> [] -> cut (a ++ b) = (length a + cut b)%nat.
Proof.
  intros [k K] Hb. destruct (cut_pos b Hb) as (n & E & B & _). rewrite E.
  rewrite (cut_uniq (a ++ b) (k + n)); [lia|]. rewrite app_length. lia.
Qed.
Lemma whole_mul l n : length l = (16 * n)%nat -> whole 16 l.
Proof. intro H. exists n. lia. Qed.
Lemma cmac_init_state E : cmac_init = cmac_state E [].
Proof. reflexivity. Qed.
Lemma cmac_rest_ok E a d b : whole 16 a -> d <> [] ->
  cmac_rest E {| cm_blk := b; cm_mac := mac_fold E (repeat 0 16) a |} d = cmac_state E (a ++ d).
Proof.
  intros W Hd. unfold cmac_rest, cmac_state. destruct (cut_pos d Hd) as (n & Ec & B & ->). cbn [cm_mac].
  rewrite cut_app_whole, Ec by auto. f_equal.
  - rewrite skipn_app, (skipn_all2 (n := length a + 16 * n) a) by lia. cbn [app]. f_equal. lia.
  - rewrite cmac_rounds_ok by lia. rewrite firstn_app, (firstn_all2 (n := length a + 16 * n) a) by lia.
    replace (length a + 16 * n - length a)%nat with (16 * n)%nat by lia. rewrite mac_fold_app by auto. reflexivity.
Qed.
Lemma cmac_update_ok E m d : cmac_update E (cmac_state E m) d = cmac_state E (m ++ d).
Proof.
  unfold cmac_update. assert (D : m = [] \/ m <> []) by (destruct m; [left|right]; congruence).
  destruct D as [-> | Hm].
  - change (cm_blk (cmac_state E [])) with (@nil Z). cbn [length Nat.eqb app].
    destruct d as [|x d]; [reflexivity|]. apply (cmac_rest_ok E [] (x :: d) []); [apply whole_nil|discriminate].
  - destruct (cut_pos m Hm) as (n & Ec & B & _).
    assert (Lb : length (cm_blk (cmac_state E m)) = (length m - 16 * n)%nat) by (unfold cmac_state; cbn [cm_blk]; rewrite skipn_length, Ec; reflexivity).
    destruct (Nat.eqb_spec (length (cm_blk (cmac_state E m))) 0) as [Z0|Z0]; [lia|].
    set (k := Nat.min (length d) (16 - length (cm_blk (cmac_state E m)))).
    assert (Hk : (k <= length d)%nat) by (unfold k; lia).
    rewrite app_length, firstn_length, Nat.min_l, skipn_length by lia.
    destruct (Nat.ltb_spec (length (cm_blk (cmac_state E m)) + k) 16); cbn [orb]; [|destruct (Nat.eqb_spec (length d - k) 0); cbn [orb]].
    + assert (k = length d) by (unfold k in *; lia). rewrite firstn_all2 by lia.
      unfold cmac_state. assert (C : cut (m ++ d) = cut m). { rewrite Ec. apply cut_uniq. rewrite app_length. lia. }
      rewrite C. cbn [cm_blk cm_mac]. f_equal.
      * rewrite skipn_app. replace (cut m - length m)%nat with 0%nat by lia. reflexivity.
      * rewrite firstn_app. replace (cut m - length m)%nat with 0%nat by lia. cbn [firstn]. rewrite app_nil_r. reflexivity.
    + assert (k = length d) by (unfold k in *; lia). rewrite firstn_all2 by lia.
      unfold cmac_state. assert (C : cut (m ++ d) = cut m). { rewrite Ec. apply cut_uniq. rewrite app_length. lia. }
      rewrite C. cbn [cm_blk cm_mac]. f_equal.
      * rewrite skipn_app. replace (cut m - length m)%nat with 0%nat by lia. reflexivity.
      * rewrite firstn_app. replace (cut m - length m)%nat with 0%nat by lia. cbn [firstn]. rewrite app_nil_r. reflexivity.
    + set (blk := cm_blk (cmac_state E m) ++ firstn k d).
      assert (L16 : length blk = 16%nat) by (unfold blk; rewrite app_length, firstn_length; unfold k in *; lia).
      set (a := firstn (cut m) m). assert (La : length a = (16 * n)%nat) by (unfold a; rewrite firstn_length; lia).
      assert (X : a ++ blk = m ++ firstn k d).
      { unfold a, blk, cmac_state. cbn [cm_blk]. rewrite app_assoc, firstn_skipn. reflexivity. }
      assert (F : E (xorl (cm_mac (cmac_state E m)) blk) = mac_fold E (repeat 0 16) (a ++ blk)).
      { rewrite mac_fold_app by (eapply whole_mul; eauto). rewrite mac_fold_one by auto. reflexivity. }
      rewrite F. rewrite cmac_rest_ok.
      * f_equal. rewrite X, <- app_assoc, firstn_skipn. reflexivity.
      * apply whole_app; [eapply whole_mul; eauto|apply whole_one; auto].
      * intro Q. apply (f_equal (@length Z)) in Q. rewrite skipn_length in Q. cbn in Q. lia.
Qed.
Lemma cmac_updates_ok E ds : forall m, fold_left (cmac_update E) ds (cmac_state E m) = cmac_state E (m ++ concat ds).
Proof.
  induction ds as [|d ds IH]; intro m; cbn [fold_left concat]; [rewrite app_nil_r; reflexivity|].
  rewrite cmac_update_ok, IH, app_assoc. reflexivity.
Qed.

Theorem cmac_ok E ds : (forall b, length b = 16%nat -> bytes b -> length (E b) = 16%nat /\ bytes (E b)) -> bytes (concat ds) ->
  cmac_digest E (fold_left (cmac_update E) ds cmac_init) = cmac_spec E (concat ds).
Proof.
  intros HE Hb. rewrite (cmac_init_state E), cmac_updates_ok. cbn [app]. set (m := concat ds) in *. clearbody m.
  unfold cmac_digest, cmac_subkeys, cmac_spec.
  destruct (HE (repeat 0 16) eq_refl (bytes_repeat0 16)) as [EL EB].
  rewrite (dbl_ok (E _)), dbl_ok by (auto using mul_x_len, mul_x_bytes).
  set (k1 := cmac_mul_x (E (repeat 0 16))). set (k2 := cmac_mul_x k1).
  assert (D : m = [] \/ m <> []) by (destruct m; [left|right]; congruence).
  destruct D as [-> | Hm]; [cbn [length Nat.div]; f_equal; apply xorl_comm|].
  destruct (cut_pos m Hm) as (n & Ec & B & Ed). rewrite Ed. cbn [Nat.eqb]. replace (S n - 1)%nat with n by lia.
  unfold cmac_state. cbn [cm_blk cm_mac]. rewrite Ec. rewrite skipn_length.
  assert (G : (negb (Nat.eqb (length m) 0) && Nat.eqb (length m mod 16) 0)%bool = Nat.eqb (length m - 16 * n) 16).
  { destruct (Nat.eqb_spec (length m) 0); [lia|]. cbn [negb andb].
    destruct (Nat.eqb_spec (length m - 16 * n) 16).
    - replace (length m) with ((n + 1) * 16)%nat by lia. rewrite Nat.mod_mul by lia. reflexivity.
    - apply Nat.eqb_neq. replace (length m) with ((length m - 16 * n) + n * 16)%nat by lia.
      rewrite Nat.mod_add, Nat.mod_small by lia. lia. }
  rewrite G. unfold mac_fold. destruct (Nat.eqb (length m - 16 * n) 16); f_equal; apply xorl_comm.
Qed.
Theorem cmac_cut E ds ds' : concat ds = concat ds' ->
  cmac_digest E (fold_left (cmac_update E) ds cmac_init) = cmac_digest E (fold_left (cmac_update E) ds' cmac_init).
Proof. intro H. rewrite (cmac_init_state E), !cmac_updates_ok, H. reflexivity. Qed.
