(** Memory-level exponentiation: src/mpi/mpi_mod_exp.c. *)
From Verif Require Import Base Lists MpiModel MpiSpec MpiDigits MpiMulModel MpiCanon MpiDivModel MpiDiv MpiAlgModel MpiAlg MemModel MemMulModel MemDivModel MemAlgModel MemSpec Mem MemOps MemShift MemLeaf MemMul MemSim MemMulSafe MemDivSafe MemLoc.
Ltac Zify.zify_post_hook ::= idtac.

Lemma bit_ok e s x v i (Q : bool -> st -> Prop) : has s x (ofZ v) -> 0 <= i < count_bits (ofZ v) -> Q (Z.testbit (Z.abs v) i) s -> wp (bit_m x i) e s Q.
Proof.
  intros H I K. pose proof (is_bit_set_ofZ v i I) as E. unfold is_bit_set in E.
  destruct (Nat.ltb_spec (Z.to_nat (i / 64)) (used (ofZ v))) as [L|L]; [|discriminate]. assert (J : forall a c : bool, Ok a = Ok c -> a = c) by (intros a c X; injection X; auto). apply J in E.
  apply wp_bind. eapply wp_rd_has; eauto. apply wp_ret. rewrite E. exact K.
Qed.
Lemma after_same e n x b v s : calm n s -> has s x v -> after e n x b v s 0 s.
Proof. intros C H. split; auto. split; [split; auto|]. left. auto. Qed.
(** the modulus, when given, is an object of the caller *)
Definition modulus (n : nat) (s : st) (mo : option nat) (m : option Z) : Prop :=
  match mo, m with None, None => True | Some x, Some v => (x < n)%nat /\ has s x (ofZ v) /\ 0 < v | _, _ => False end.
Lemma modulus_ok n s mo m : modulus n s mo m -> okmod m.
Proof. destruct mo, m; cbn; tauto. Qed.
Lemma reduce_safe e n s s0 mo m z : modulus n s0 mo m -> loc n [z] s0 s ->
  wp (reduce_m (n + 1) n mo) e s (after e (n + 1) n false (ofZ (red_spec m z)) s).
Proof.
  intros H K. pose proof (loc_calm _ _ _ _ K) as C. pose proof (loc_has0 _ _ _ _ z K ltac:(cbn; lia) eq_refl) as V. destruct mo as [x|], m as [m|]; cbn in H; try tauto; cbn [reduce_m red_spec].
  - destruct H as (L & H & P). eapply wp_mono; [apply mod_safe; [exact C|lia|lia|lia|exact V|eapply loc_out; eauto|eexists; exact V|exact P|right; lia]|].
    intros rc s' A. eapply after_weak; [eexists; exact V|exact A].
  - apply wp_ret. apply after_same; auto.
Qed.
Lemma me_loop_m_ok e n s0 b ex mo vb ve m : modulus n s0 mo m -> (b < n)%nat -> (ex < n)%nat -> has s0 b (ofZ vb) -> has s0 ex (ofZ ve) -> 0 <= ve ->
  forall k x z s, Z.of_nat k <= count_bits (ofZ ve) -> loc n [x] s0 s -> me_loop k (ofZ vb) (ofZ ve) (option_map ofZ m) (ofZ x) = Ok (ofZ z) ->
  wp (me_loop_m k n b ex mo) e s (fun rc s' => rc = 0 /\ loc n [z] s0 s' \/ rc = -1 /\ lost e n 1 s0 s').
Proof.
  intros Hm Lb Le Hb He Pe. pose proof (modulus_ok _ _ _ _ Hm) as Om. induction k as [|k IH]; intros x z s Hk K F; cbn [me_loop_m me_loop] in *.
  - apply wp_ret. left. split; auto. assert (E : x = z) by (rewrite <- (mval_ofZ x), <- (mval_ofZ z); congruence). subst z. auto.
  - rewrite sqr_ofZ in F. cbn [bind] in F. rewrite reduce_ofZ in F by auto. cbn [bind] in F. rewrite is_bit_set_ofZ in F by lia. cbn [bind] in F.
    assert (V : has s n (ofZ x)) by (eapply loc_has0; [exact K|cbn; lia|reflexivity]).
    eapply (loc_chk e n [x] s0 s 0 true (x * x)); [exact K|cbn; lia| | |intros s' J; right; auto].
    { rewrite Nat.add_0_r. cbn [length]. eapply sqr_safe; [apply (loc_calm _ _ _ _ K)|lia|lia|exact V|exact V|auto]. }
    cbn [upd]. intros s1 K1. eapply (loc_chk e n [x * x] s0 s1 0 false (red_spec m (x * x))); [exact K1|cbn; lia| | |intros s' J; right; auto].
    { rewrite Nat.add_0_r. cbn [length]. eapply reduce_safe; eauto. }
    cbn [upd]. intros s2 K2. apply wp_bind. eapply bit_ok; [eapply loc_out; [exact K2|exact Le|exact He]|lia|].
    destruct (Z.testbit (Z.abs ve) (Z.of_nat k)).
    + rewrite mul_ofZ in F. cbn [bind] in F. rewrite reduce_ofZ in F by auto. cbn [bind] in F.
      assert (V2 : has s2 n (ofZ (red_spec m (x * x)))) by (eapply loc_has0; [exact K2|cbn; lia|reflexivity]).
      eapply (loc_chk e n [red_spec m (x * x)] s0 s2 0 false (red_spec m (x * x) * vb)); [exact K2|cbn; lia| | |intros s' J; right; auto].
      { rewrite Nat.add_0_r. cbn [length]. eapply mul_safe; [apply (loc_calm _ _ _ _ K2)|lia|lia|lia|eexists; exact V2|exact V2|eapply loc_out; eauto]. }
      cbn [upd]. intros s3 K3. eapply (loc_chk e n [red_spec m (x * x) * vb] s0 s3 0 false (red_spec m (red_spec m (x * x) * vb))); [exact K3|cbn; lia| | |intros s' J; right; auto].
      { rewrite Nat.add_0_r. cbn [length]. eapply reduce_safe; eauto. }
      cbn [upd]. intros s4 K4. eapply IH; [lia|exact K4|exact F].
    + eapply IH; [lia|exact K2|exact F].
Qed.

(** * cry_mpi_set_int and cry_mpi_init_int *)
Lemma int_view v : - 2 ^ 63 < v < 2 ^ 63 -> mkmpi (v <? 0) (if v =? 0 then [] else [Z.abs v]) = ofZ v.
Proof.
  intro H. assert (BB : 2 ^ 63 < B) by reflexivity. apply is_ofZ.
  - split; cbn [dg neg].
    + destruct (Z.eqb_spec v 0); split; cbn [dg]; [apply Forall_nil|apply normal_nil| |apply normal_one; clear - n; lia]. apply Forall_cons; [clear - H BB; lia|apply Forall_nil].
    + destruct (Z.eqb_spec v 0) as [->|]; [reflexivity|discriminate].
  - unfold mval. cbn [neg dg]. destruct (Z.eqb_spec v 0) as [->|]; [reflexivity|]. cbn [val]. destruct (Z.ltb_spec v 0); clear - H0; lia.
Qed.
Lemma set_int_tail e x v s (Q : Z -> st -> Prop) : live s x -> (1 <= len s x)%nat -> - 2 ^ 63 < v < 2 ^ 63 ->
  (forall s' o, becomes s x o s' -> (o_us o <= length (o_da o))%nat -> view o = ofZ v -> length (o_da o) = len s x -> Q 0 s') ->
  wp (if v =? - 2 ^ 63 then undefined else call set_sg x (v <? 0); call set_us x 0; if v =? 0 then ret 0 else call wr x 0 (Z.abs v); call set_us x 1; ret 0) e s Q.
Proof.
  intros L L1 V K. destruct (Z.eqb_spec v (- 2 ^ 63)); [lia|]. pose proof (int_view v V) as IV.
  apply wp_bind. apply wp_set_sg; auto. set (s1 := put _ _ _). assert (B1 : becomes s x (mkobj (v <? 0) (o_us (ob s x)) (dat s x)) s1) by apply becomes_put. clearbody s1.
  apply wp_bind. apply wp_set_us; [eapply becomes_live; eauto|]. unfold dat. rewrite (becomes_ob _ _ _ _ B1). cbn [o_sg o_da].
  set (s2 := put _ _ _). assert (B2 : becomes s x (mkobj (v <? 0) 0 (dat s x)) s2) by (eapply becomes_trans; [exact B1|apply becomes_put]). clearbody s2.
  destruct (Z.eqb_spec v 0) as [E0|E0].
  - apply wp_ret. eapply K; [exact B2|cbn; lia|exact IV|reflexivity].
  - assert (E2 : ob s2 x = mkobj (v <? 0) 0 (dat s x)) by (eapply becomes_ob; eauto).
    apply wp_bind. apply wp_wr; [eapply becomes_live; eauto|unfold len, dat; rewrite E2; exact L1|].
    unfold wput, dat. rewrite E2. cbn [o_sg o_us o_da].
    set (s3 := put _ _ _). assert (B3 : becomes s x (mkobj (v <? 0) 0 (upd (dat s x) 0 (Z.abs v))) s3) by (eapply becomes_trans; [exact B2|apply becomes_put]). clearbody s3.
    apply wp_bind. apply wp_set_us; [eapply becomes_live; eauto|]. unfold dat. rewrite (becomes_ob _ _ _ _ B3). cbn [o_sg o_da]. apply wp_ret.
    eapply K; [eapply becomes_trans; [exact B3|apply becomes_put]| | |cbn [o_da]; rewrite upd_length; reflexivity].
    + cbn [o_us o_da]. rewrite upd_length. exact L1.
    + unfold view. cbn [o_sg o_us o_da]. unfold len in L1. rewrite <- IV. destruct (dat s x); [cbn in L1; lia|reflexivity].
Qed.
Lemma set_int_fits e x v s : live s x -> (1 <= len s x)%nat -> - 2 ^ 63 < v < 2 ^ 63 ->
  wp (set_int x v) e s (fun rc s' => rc = 0 /\ leaf e x true (ofZ v) s rc s').
Proof.
  intros L L1 V. apply wp_check. apply wp_bind. apply wp_get; auto. fold (dat s x). destruct (Nat.leb_spec 1 (length (dat s x))) as [H|H]; [|unfold len in L1; lia].
  apply wp_ret. cbn [Z.eqb]. apply set_int_tail; auto. intros s' o K1 K2 K3 K4. split; auto. eapply becomes_leaf; eauto. lia.
Qed.
Lemma set_int_leaf e x v s : live s x -> - 2 ^ 63 < v < 2 ^ 63 -> wp (set_int x v) e s (leaf e x true (ofZ v) s).
Proof.
  intros L V. unfold set_int. eapply wp_grown; [apply grow_ok; auto| |].
  - intros s1 G L1. apply set_int_tail; auto; [eapply grown_live; eauto|]. intros s' o K1 K2 K3 K4.
    pose proof (grown_len _ _ _ _ _ x G) as GL. destruct G as (G1 & G2 & _).
    eapply leaf_ok with (s1 := s1); auto. exists o. repeat (split; auto). lia.
  - intros s1 M T S. split; auto.
Qed.
Lemma init_int_ok e n s v : calm n s -> grant e (tick s) = true -> - 2 ^ 63 < v < 2 ^ 63 ->
  wp (init_int n v) e s (fun rc s' => rc = 0 /\ loc n [v] s s').
Proof.
  intros C G V. unfold init_int. apply wp_check. eapply wp_mono; [apply wp_and; [apply init_ok|]|].
  - instantiate (1 := fun rc _ => rc = 0). unfold init. apply wp_bind. apply wp_alloc; intro G'; [|congruence]. apply wp_bind. apply wp_set. apply wp_ret. reflexivity.
  - cbv beta. intros rc s1 [(M1 & T1 & [(_ & H & L)|(F & _)]) ->]; [|discriminate]. cbn [Z.eqb].
    apply wp_bind. eapply wp_mono; [apply set_int_fits; [eapply has_live; eauto|lia|auto]|]. cbv beta. intros rc s2 [-> (M2 & T2 & D)]. cbn [Z.ltb Z.compare].
    destruct D as [(_ & D & _)|(F & _)]; [|discriminate]. apply wp_ret. split; auto. split; [|split; [|split]]; cbn [length].
    + intros x Hx. rewrite M2, M1 by lia. apply C. lia.
    + intros x Hx. rewrite M2, M1 by lia. auto.
    + lia.
    + intros [|i] Hi; [|lia]. rewrite Nat.add_0_r. exact D.
Qed.

Lemma clear_locals n : clear_list (locals n 1) = (call clear n; ret tt).
Proof. reflexivity. Qed.
Lemma finally_one body n e s Q : wp (finally body (clear_list (locals n 1))) e s Q -> wp (finally body (clear n)) e s Q.
Proof.
  rewrite clear_locals. unfold wp, finally, cbind, ret. destruct (body e s) as [[rc s1]| | |]; auto. destruct (clear n e s1) as [[t s2]| | |]; auto.
Qed.
(** the value of the routine *)
Definition exp_val (b e : Z) (m : option Z) : Z := red_spec m (b ^ e).
Lemma exp_safe e s n r b ex mo vb ve m : calm n s -> (r < n)%nat -> (b < n)%nat -> (ex < n)%nat -> usable s r -> has s b (ofZ vb) -> has s ex (ofZ ve) ->
  modulus n s mo m -> 0 <= ve -> m <> Some 1 \/ 0 < ve -> grant e (tick s) = true ->
  wp (mod_exp_m n r b ex mo) e s (after e n r true (ofZ (exp_val vb ve m)) s).
Proof.
  intros C R Lb Le U Hb He Hm Pe HX G. pose proof (modulus_ok _ _ _ _ Hm) as Om. pose proof (exp_gen_ok m vb ve Om Pe HX) as F.
  unfold mod_exp_m. apply wp_bind. eapply wp_peek; eauto. apply wp_bind.
  assert (NG : forall K : bool -> st -> Prop, K false s -> wp (match mo with None => ret false | Some m => run vm <- peek m; ret (neg vm) end) e s K).
  { intros K H. destruct mo as [x|], m as [m|]; cbn in Hm; try contradiction; [|apply wp_ret; auto]. apply wp_bind. eapply wp_peek; [apply Hm|]. apply wp_ret. rewrite ofZ_neg. destruct (Z.ltb_spec m 0); [lia|exact H]. }
  apply NG. clear NG. rewrite ofZ_neg. destruct (Z.ltb_spec ve 0); [lia|]. cbn [orb].
  unfold mod_exp_gen in F. rewrite ofZ_neg in F. destruct (Z.ltb_spec ve 0); [lia|]. cbn [orb] in F.
  assert (NM : match option_map ofZ m with Some m0 => neg m0 | None => false end = false) by (destruct m as [m|]; [cbn in Om; cbn [option_map]; rewrite ofZ_neg; lia|reflexivity]).
  rewrite NM in F. rewrite <- ofZ_1 in F.
  apply wp_bind. eapply wp_mono; [apply init_int_ok; [exact C|exact G|lia]|]. cbv beta. intros rc s1 [-> K].
  cbv zeta. destruct (Nat.eqb_spec (Z.to_nat (count_bits (ofZ ve))) 0) as [E0|E0].
  - rewrite E0 in F. cbn [me_loop] in F. assert (E1 : exp_val vb ve m = 1) by (unfold exp_val; rewrite <- (mval_ofZ 1), <- (mval_ofZ (red_spec m (vb ^ ve))); congruence). rewrite E1.
    assert (W : wp (finally (call swap r n; ret 0) (clear n)) e s1 (after e n r true (ofZ 1) s)).
    { apply finally_one. apply fin_clear; auto. rewrite <- (Nat.add_0_r n) at 1. eapply (loc_swap e n [1] s s1 r 0); eauto. apply usable_live; auto. }
    revert W. unfold wp, finally, cbind, ret. destruct (swap r n e s1) as [[t s2]| | |]; auto.
  - apply finally_one. apply fin_clear; auto. apply wp_check.
    eapply wp_mono; [eapply me_loop_m_ok; [exact Hm|exact Lb|exact Le|exact Hb|exact He|exact Pe| |exact K|exact F]|].
    + destruct (count_bits_spec ve Pe). lia.
    + cbv beta. intros rc s2 [[-> K2]|[-> K2]]; cbn [Z.eqb].
      * rewrite <- (Nat.add_0_r n) at 1. eapply (loc_swap e n [red_spec m (vb ^ ve)] s s2 r 0); eauto. apply usable_live; auto.
      * apply fin_lost; auto.
Qed.
