(** Proofs for C87: scalar multiplication does not look at the coefficient b, so
    a point of another curve is multiplied on that curve. *)
From Coq Require Import Znumtheory.
From Verif Require Import Base MpiModel MpiAlgModel MpiSpec MpiTextSpec MpiAlg2 NumTh EcpModel EcSpec EcZ EcpSpec Ecp EcpMul EcPk.

Section Same.
  Variables g h : grp.
  Hypothesis Ep : gp g = gp h.
  Hypothesis Ea : ga g = ga h.
  Lemma dbl_same P : ecp_dbl g P = ecp_dbl h P.
  Proof. unfold ecp_dbl. rewrite Ep, Ea. reflexivity. Qed.
  Lemma add_same P Q : ecp_add g P Q = ecp_add h P Q.
  Proof. unfold ecp_add. rewrite Ep, dbl_same. reflexivity. Qed.
  Lemma win_next_same n : forall Q P, ecp_win_next g n Q P = ecp_win_next h n Q P.
  Proof. induction n as [|n IH]; intros Q P; [reflexivity|]. cbn [ecp_win_next]. rewrite add_same. destruct (ecp_add h Q P); cbn [bind]; [rewrite IH|..]; reflexivity. Qed.
  Lemma bind_ext {A B} (x : res A) (f f' : A -> res B) : (forall a, f a = f' a) -> bind x f = bind x f'.
  Proof. intro E. destruct x; cbn [bind]; auto. Qed.
  Lemma win_same P : ecp_win g P = ecp_win h P.
  Proof.
    unfold ecp_win. rewrite dbl_same. apply bind_ext. intro. rewrite dbl_same. apply bind_ext. intro. rewrite dbl_same. apply bind_ext. intro.
    rewrite win_next_same. reflexivity.
  Qed.
  Lemma dbl_if_same f r : dbl_if g f r = dbl_if h f r.
  Proof. destruct f; [reflexivity|apply dbl_same]. Qed.
  Lemma add_if_same f r Q : add_if g f r Q = add_if h f r Q.
  Proof. destruct f; [reflexivity|apply add_same]. Qed.
  Lemma win_loop_same fuel k paf : forall w i j r, win_loop fuel g k paf w i j r = win_loop fuel h k paf w i j r.
  Proof.
    induction fuel as [|f IH]; intros; [reflexivity|]. cbn [win_loop]. destruct (w <? 8); [|reflexivity].
    apply bind_ext. intros [i' j']. rewrite dbl_if_same. apply bind_ext. intro r'. apply bind_ext. intro b. apply IH.
  Qed.
  Lemma mul_loop_same fuel k P win : forall paf i j r, mul_loop fuel g k P win paf i j r = mul_loop fuel h k P win paf i j r.
  Proof.
    induction fuel as [|f IH]; intros; [reflexivity|]. cbn [mul_loop]. destruct j as [|j]; [destruct i; auto|].
    rewrite dbl_if_same. apply bind_ext. intro r'. apply bind_ext. intros []; [|apply IH].
    destruct (negb (Nat.eqb i 0) || Nat.leb 3 j).
    - rewrite win_loop_same. apply bind_ext. intros [[[w i'] j'] r'']. rewrite add_if_same. apply bind_ext. intro. apply IH.
    - rewrite add_if_same. apply bind_ext. intro. apply IH.
  Qed.
  Lemma mul_same P k : ecp_mul g P k = ecp_mul h P k.
  Proof. unfold ecp_mul. destruct (ecp_is_zero P); [reflexivity|]. rewrite win_same. apply bind_ext. intro. apply mul_loop_same. Qed.
End Same.

(** cry_ecdh_final with a point of odd order of the curve with b' *)
Lemma final_other p a b b' am G n d Q z : a_rep am a -> good_curve p a b' -> on_curve p a b' Q -> odd_order p a Q -> 0 <= d ->
  ecdh_final {| dh_ec := egrp p am b G n; dh_d := ofZ d; dh_q := ept Q; dh_z := z |} =
  Ok {| dh_ec := egrp p am b G n; dh_d := ofZ d; dh_q := ept Q; dh_z := ept (ec_mul p a d Q) |}.
Proof.
  intros HA HG HQ HO Hd. unfold ecdh_final. cbn [dh_ec dh_d dh_q dh_z].
  rewrite (mul_same (egrp p am b G n) (egrp p am b' G n) eq_refl eq_refl).
  rewrite (ecp_mul_ok p a b') by (auto; apply (odd_no_order2 p a b'); auto). rewrite Z.abs_eq by exact Hd. reflexivity.
Qed.
Lemma final_residue p a b b' am G n d Q m z : a_rep am a -> ecdsa_domain p a b' Q m -> 0 <= d ->
  ecdh_final {| dh_ec := egrp p am b G n; dh_d := ofZ d; dh_q := ept Q; dh_z := z |} =
  Ok {| dh_ec := egrp p am b G n; dh_d := ofZ d; dh_q := ept Q; dh_z := ept (ec_mul p a (d mod m) Q) |}.
Proof.
  intros HA HD Hd. pose proof HD as (HG & HQ & NQ & Pm & M2 & E). rewrite (final_other p a b b') by (auto; exact (domain_odd _ _ _ _ _ HD)).
  pose proof (Z.mod_pos_bound d m ltac:(lia)). rewrite (ec_mul_period p a b' HG m d (d mod m)) by (auto; try lia; rewrite Zmod_mod; reflexivity). reflexivity.
Qed.
(** and the residue follows from the result *)
Lemma residue_inj p a b Q m d d' : ecdsa_domain p a b Q m -> 0 <= d -> 0 <= d' -> ec_mul p a d Q = ec_mul p a d' Q -> d mod m = d' mod m.
Proof.
  assert (K : forall d d', ecdsa_domain p a b Q m -> 0 <= d -> 0 <= d' -> d mod m <= d' mod m -> ec_mul p a d Q = ec_mul p a d' Q -> d mod m = d' mod m).
  2:{ intros HD H H' E. destruct (Z_le_gt_dec (d mod m) (d' mod m)) as [L|L]; [apply K; auto|]. symmetry. apply K; auto. lia. }
  clear d d'. intros d d' HD H H' L E. pose proof HD as (HG & HQ & NQ & Pm & M2 & EM).
  assert (R : forall x, 0 <= x -> ec_mul p a x Q = ec_mul p a (x mod m) Q).
  { intros x Hx. pose proof (Z.mod_pos_bound x m ltac:(lia)). apply (ec_mul_period p a b HG m); auto; try lia. rewrite Zmod_mod. reflexivity. }
  rewrite (R d H), (R d' H') in E. pose proof (Z.mod_pos_bound d m ltac:(lia)) as B. pose proof (Z.mod_pos_bound d' m ltac:(lia)) as B'.
  set (u := d mod m) in *. set (v := d' mod m) in *. clearbody u v. destruct (Z.eq_dec u v) as [|D]; [auto|exfalso].
  apply (domain_finite p a b Q m (v - u) HD); [lia|].
  assert (O : forall k, 0 <= k -> on_curve p a b (ec_mul p a k Q)) by (intros; apply (ec_mul_on p a b HG); auto).
  assert (T : ec_add p a (ec_add p a (ec_mul p a (v - u) Q) (ec_mul p a u Q)) (ec_neg p (ec_mul p a u Q)) = None).
  { rewrite <- (ec_mul_add p a b HG) by (auto; lia). replace (v - u + u) with v by ring. rewrite <- E. apply (ec_add_neg p a b HG). apply O. lia. }
  rewrite (ec_add_assoc p a b HG) in T by first [apply O; lia|apply (ec_neg_on p a b HG), O; lia].
  rewrite (ec_add_neg p a b HG), ec_add_0_r in T by (apply O; lia). exact T.
Qed.
Lemma final_zero g d z : ecdh_final {| dh_ec := g; dh_d := d; dh_q := ecp_zero; dh_z := z |} = Ok {| dh_ec := g; dh_d := d; dh_q := ecp_zero; dh_z := ecp_zero |}.
Proof. reflexivity. Qed.

(** * The named curves *)
From Verif Require Import EcCurvesModel EcCurvesSpec EcCurves EcNamedSpec EcNamed EcOrder.
From Verif Require Cert256r1.
Lemma peer_named id c g d Q z : In (id, c) certified -> ecp_grp_load id = Ok g -> on_curve (cp c) (ca c) (cb c) Q -> 0 <= d ->
  ecdh_final {| dh_ec := g; dh_d := ofZ d; dh_q := ept Q; dh_z := z |} =
  Ok {| dh_ec := g; dh_d := ofZ d; dh_q := ept Q; dh_z := ept (ec_mul (cp c) (ca c) d Q) |}.
Proof. intros HC HL HQ Hd. rewrite (named_final id c g HC HL d Q z HQ). rewrite Z.abs_eq by exact Hd. reflexivity. Qed.
Definition b3 : Z := 0x1fffffffe00000002000000000000000000000001fffffffffffffffffffffd3.
Definition y3 : Z := 0x8006be78d090abd1a7890a1f21172515719def90bad7a1713fc1e58cbc12aeef.
Lemma good3 : good_curve (cp secp256r1) (ca secp256r1) b3.
Proof. split; [exact (proj1 Cert256r1.good)|]. split; [reflexivity|]. vm_compute. discriminate. Qed.
Lemma on3 : on_curve (cp secp256r1) (ca secp256r1) b3 (Some (6, y3)).
Proof. vm_compute. repeat split; discriminate. Qed.
Lemma twice3 : ec_add (cp secp256r1) (ca secp256r1) (Some (6, y3)) (Some (6, y3)) = Some (6, cp secp256r1 - y3).
Proof.
  apply (double_ok (cp secp256r1) (ca secp256r1) b3 Cert256r1.mp Cert256r1.mp_ok good3 (6, y3)
    (0xea339fda6980065063d9d11fcb77a6dc08debbc7a9312c7be1697d87aff1768, 0xea3ff6c8814798ac8b94fefea50136e3a8b86c079eda1a7aa9c92978940ec39, 0xd6426aa533f78896b9a3fb2fdb804f7f00628f1cd61990e2f3b0013cac25d2, -0x1)); [exact on3|vm_compute; reflexivity].
Qed.
Lemma mul3_2 : ec_mul (cp secp256r1) (ca secp256r1) 2 (Some (6, y3)) = Some (6, cp secp256r1 - y3).
Proof. change 2 with (1 + 1). rewrite (ec_mul_add _ _ _ good3) by (try lia; exact on3). rewrite ec_mul_1. exact twice3. Qed.
Lemma mul3_3 : ec_mul (cp secp256r1) (ca secp256r1) 3 (Some (6, y3)) = None.
Proof.
  change 3 with (1 + 2). rewrite (ec_mul_add _ _ _ good3) by (try lia; exact on3). rewrite ec_mul_1, mul3_2.
  assert (E : Some (6, cp secp256r1 - y3) = ec_neg (cp secp256r1) (Some (6, y3))) by (vm_compute; reflexivity).
  rewrite E. exact (ec_add_neg _ _ _ good3 _ on3).
Qed.
Lemma domain3 : ecdsa_domain (cp secp256r1) (ca secp256r1) b3 (Some (6, y3)) 3.
Proof. split; [exact good3|]. split; [exact on3|]. split; [discriminate|]. split; [exact prime_3|]. split; [reflexivity|exact mul3_3]. Qed.
Lemma peer_three p a am b b' G n Q R d z : a_rep am a -> ecdsa_domain p a b' Q 3 -> ec_mul p a 2 Q = R -> 0 <= d ->
  ecdh_final {| dh_ec := egrp p am b G n; dh_d := ofZ d; dh_q := ept Q; dh_z := z |} =
  Ok {| dh_ec := egrp p am b G n; dh_d := ofZ d; dh_q := ept Q; dh_z := ept (if d mod 3 =? 0 then None else if d mod 3 =? 1 then Q else R) |}.
Proof.
  intros HA HD E Hd. rewrite (final_residue p a b b' am G n d Q 3 z HA HD Hd). do 2 f_equal.
  pose proof (Z.mod_pos_bound d 3 ltac:(lia)) as B. assert (C : d mod 3 = 0 \/ d mod 3 = 1 \/ d mod 3 = 2) by lia.
  destruct C as [->|[->| ->]]; cbn [Z.eqb Pos.eqb].
  - reflexivity.
  - rewrite ec_mul_1. reflexivity.
  - rewrite E. reflexivity.
Qed.
Lemma peer_p256 g d z : ecp_grp_load 2 = Ok g -> 0 <= d ->
  ~ on_curve (cp secp256r1) (ca secp256r1) (cb secp256r1) (Some (6, y3)) /\
  ecdh_final {| dh_ec := g; dh_d := ofZ d; dh_q := ept (Some (6, y3)); dh_z := z |} =
  Ok {| dh_ec := g; dh_d := ofZ d; dh_q := ept (Some (6, y3)); dh_z := ept (if d mod 3 =? 0 then None else if d mod 3 =? 1 then Some (6, y3) else Some (6, cp secp256r1 - y3)) |}.
Proof.
  intros HL Hd. split. { intros (_ & _ & E). vm_compute in E. discriminate. }
  assert (HC : In (2, secp256r1) certified) by (right; right; left; reflexivity).
  pose proof (certified_load 2 secp256r1 g HC HL) as EG. clear HL. subst g.
  exact (peer_three (cp secp256r1) (ca secp256r1) (am_of (ca secp256r1)) (cb secp256r1) b3 (cg secp256r1) (cn secp256r1) (Some (6, y3)) _ d z (am_of_rep (ca secp256r1)) domain3 mul3_2 Hd).
Qed.
