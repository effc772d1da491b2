(** Memory-level square root: src/mpi/mpi_sqrt.c. *)
From Verif Require Import Base Lists Bits MpiModel MpiSpec MpiDigits MpiMulModel MpiCanon MpiDivModel MpiDiv MpiAlgModel MpiAlg MpiAlg2 MemModel MemMulModel MemDivModel MemAlgModel MemSpec Mem MemOps MemShift MemLeaf MemMul MemSim MemMulSafe MemDiv MemDivSafe MemLoc MemGcd.
Ltac Zify.zify_post_hook ::= idtac.

Lemma sqrt_step_zero a : sqrt_step (ofZ a) (ofZ 0) = Err (-1).
Proof. reflexivity. Qed.
Lemma sqrt_step_m_ok e n s0 a va x y s : (a < n)%nat -> has s0 a (ofZ va) -> 0 <= va -> 0 < x -> loc n [x; y] s0 s ->
  wp (sqrt_step_m n a) e s (fun rc s' => rc = 0 /\ loc n [(x + va / x) / 2; va / x] s0 s' \/ rc = -1 /\ lost e n 2 s0 s').
Proof.
  intros La Ha Pa Px K. assert (Q : 0 <= va / x) by (apply Z.div_pos; lia). unfold sqrt_step_m.
  eapply (loc_chk e n [x; y] s0 s 1 (x <=? va) (va / x)); [exact K|cbn; lia| | |intros s' J; right; auto].
  { cbn [length]. eapply wp_mono; [eapply (div_safe e s (n + 2) (Some (n + 1)%nat) None a n va x)|].
    - apply (loc_calm _ _ _ _ K).
    - lia.
    - lia.
    - eapply loc_out; eauto.
    - eapply loc_has0; [exact K|cbn; lia|reflexivity].
    - auto.
    - auto.
    - intros q E. injection E as <-. split; [lia|]. split; [eexists; eapply loc_has; [exact K|cbn; lia|reflexivity]|discriminate].
    - discriminate.
    - intros rc s' A. eapply after2_quo; [lia|eexists; eapply loc_has; [exact K|cbn; lia|reflexivity]|exact A]. }
  cbn [upd]. intros s1 K1. eapply (loc_chk e n [x; va / x] s0 s1 0 true (x + va / x)); [exact K1|cbn; lia| | |intros s' J; right; auto].
  { rewrite Nat.add_0_r. cbn [length]. assert (V : has s1 n (ofZ x)) by (eapply loc_has0; [exact K1|cbn; lia|reflexivity]).
    apply add_safe; [apply (loc_calm _ _ _ _ K1)|lia|eexists; exact V|exact V|eapply loc_has; [exact K1|cbn; lia|reflexivity]]. }
  cbn [upd]. intros s2 K2. eapply (loc_last e n [x + va / x; va / x] s0 s2 0 true ((x + va / x) / 2)); [exact K2|cbn; lia| | |intros s' J; right; auto].
  { rewrite Nat.add_0_r. cbn [length]. assert (V : has s2 n (ofZ (x + va / x))) by (eapply loc_has0; [exact K2|cbn; lia|reflexivity]). rewrite <- (Z.pow_1_r 2).
    apply shr_safe; [apply (loc_calm _ _ _ _ K2)|lia|eexists; exact V|exact V|lia|lia]. }
  cbn [upd]. intros s3 K3. left. auto.
Qed.
Lemma sqrt_loop_m_ok e n s0 a va z : (a < n)%nat -> has s0 a (ofZ va) -> 0 <= va -> forall f x y s, 0 <= x -> loc n [x; y] s0 s -> sqrt_loop f (ofZ va) (ofZ x) = Ok (ofZ z) ->
  wp (sqrt_loop_m f n a) e s (fun rc s' => rc = 0 /\ (exists y', loc n [z; y'] s0 s') \/ rc = -1 /\ lost e n 2 s0 s').
Proof.
  intros La Ha Pa. induction f as [|f IH]; intros x y s Px K F; [discriminate|]. cbn [sqrt_loop_m sqrt_loop] in *.
  destruct (Z.eq_dec x 0) as [->|N]; [rewrite sqrt_step_zero in F; discriminate|]. assert (P : 0 < x) by lia. assert (Q : 0 <= va / x) by (apply Z.div_pos; lia).
  rewrite sqrt_step_ofZ in F by auto. cbn [bind] in F.
  apply wp_check. eapply wp_mono; [eapply sqrt_step_m_ok; eauto|]. cbv beta. intros rc s1 [[-> K1]|[-> K1]]; cbn [Z.eqb]; [|right; auto].
  apply wp_bind. eapply loc_peek0; [exact K1|cbn; lia|reflexivity|]. apply wp_bind. eapply loc_peek; [exact K1|cbn; lia|reflexivity|]. cbn [nth].
  destruct (0 <? cmp_abs _ _).
  - eapply IH; [|exact K1|exact F]. apply Z.div_pos; lia.
  - apply wp_ret. left. split; auto. exists (va / x). replace z with ((x + va / x) / 2); auto. rewrite <- (mval_ofZ z), <- (mval_ofZ (_ / 2)). congruence.
Qed.
Lemma sqrt_safe e s n r a va : calm n s -> (r < n)%nat -> (a < n)%nat -> usable s r -> has s a (ofZ va) -> 0 <= va ->
  wp (sqrt_m n r a) e s (after e n r true (ofZ (Z.sqrt va)) s).
Proof.
  intros C R La U Ha Pa. pose proof (sqrt_ofZ va Pa) as F. unfold sqrt in F. rewrite ofZ_neg, is_zero_ofZ in F.
  unfold sqrt_m. apply wp_bind. eapply wp_peek; eauto. rewrite ofZ_neg, is_zero_ofZ. destruct (Z.ltb_spec va 0); [lia|]. destruct (Z.eqb_spec va 0) as [->|N].
  { eapply wp_mono; [apply zero_leaf; apply usable_live; auto|]. intros rc s' L. apply leaf_after; auto. }
  cbv zeta in F. rewrite shrd_ofZ in F by auto. set (k := (used (ofZ va) / 2)%nat) in *.
  assert (X0 : 0 <= va / B ^ Z.of_nat k). { apply Z.div_pos; auto. apply Z.pow_pos_nonneg; [reflexivity|lia]. }
  set (x := va / B ^ Z.of_nat k) in *. 
  destruct (Z.eq_dec x 0) as [Ex|Nx]; [rewrite Ex in F; rewrite sqrt_step_zero in F; discriminate|].
  rewrite sqrt_step_ofZ in F by lia. cbn [bind] in F.
  apply loc_init; auto.
  2:{ intros. apply start_fails; auto. }
  cbn [repeat]. intros s1 K1 _. apply fin_clear; auto.
  eapply (loc_chk e n [0; 0] s s1 0 true va); [exact K1|cbn; lia| | |intros s' J; apply fin_lost; auto].
  { rewrite Nat.add_0_r. cbn [length]. apply copy_safe; [apply (loc_calm _ _ _ _ K1)|lia|eexists; eapply loc_has0; [exact K1|cbn; lia|reflexivity]|eapply loc_out; eauto]. }
  cbn [upd]. intros s2 K2. pose proof (loc_has0 _ _ _ _ va K2 ltac:(cbn; lia) eq_refl) as V2.
  apply wp_bind. destruct (has_elim _ _ _ V2) as (L2 & U2 & _). apply wp_get; auto. rewrite U2. fold k. apply wp_bind.
  eapply (loc_sure e n [va; 0] s s2 0 true x); [exact K2|cbn; lia| |].
  { rewrite Nat.add_0_r. cbn [length]. eapply wp_mono; [apply shrd_m_ok; exact V2|]. cbv beta. intros rc s3 (-> & o & B1 & B2 & B3 & B4). split; auto.
    apply leaf_after; [lia|apply (loc_calm _ _ _ _ K2)|]. eapply becomes_leaf; eauto; [|lia]. rewrite B3. apply shrd_ofZ. auto. }
  cbn [upd]. intros s3 K3. clearbody x k.
  apply wp_check. eapply wp_mono; [eapply sqrt_step_m_ok; [exact La|exact Ha|exact Pa| |exact K3]; lia|].
  cbv beta. intros rc s4 [[-> K4]|[-> K4]]; cbn [Z.eqb]; [|apply fin_lost; auto].
  apply wp_check. eapply wp_mono; [eapply sqrt_loop_m_ok; [exact La|exact Ha|exact Pa| |exact K4|exact F]|].
  { apply Z.div_pos; [|lia]. assert (0 <= va / x) by (apply Z.div_pos; lia). lia. }
  cbv beta. intros rc s5 [[-> (y' & K5)]|[-> K5]]; cbn [Z.eqb]; [|apply fin_lost; auto].
  rewrite <- (Nat.add_0_r n) at 1. eapply (loc_swap e n [Z.sqrt va; y'] s s5 r 0); eauto; [cbn; lia|]. apply usable_live; auto.
Qed.
Lemma sqrt_neg_m e s n r a va : has s a (ofZ va) -> va < 0 -> wp (sqrt_m n r a) e s (fun rc s' => rc = -1 /\ s' = s).
Proof.
  intros Ha P. unfold sqrt_m. apply wp_bind. eapply wp_peek; eauto. rewrite ofZ_neg. destruct (Z.ltb_spec va 0); [|lia]. apply wp_ret. auto.
Qed.
