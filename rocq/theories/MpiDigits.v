(** Lemmas on digit lists: addition, subtraction, comparison, shifts. *)
From Verif Require Import Base Bits MpiModel MpiSpec.
Ltac Zify.zify_post_hook ::= Z.div_mod_to_equations.

Lemma B_pos : 0 < B. Proof. reflexivity. Qed.
Lemma B_gt1 : 1 < B. Proof. reflexivity. Qed.
Global Hint Resolve B_pos B_gt1 : core.

Lemma digits_nil : digits []. Proof. constructor. Qed.
Lemma digits_cons d l : digits (d :: l) <-> 0 <= d < B /\ digits l.
Proof. unfold digits; split; intro H; [inversion H; auto | constructor; tauto]. Qed.
Lemma digits_app l1 l2 : digits (l1 ++ l2) <-> digits l1 /\ digits l2.
Proof. unfold digits. apply Forall_app. Qed.
Global Hint Resolve digits_nil : core.

Lemma val_nonneg l : digits l -> 0 <= val l.
Proof.
  induction l as [|d l IH]; intro H; cbn [val]; [lia|].
  apply digits_cons in H as [H1 H2]. specialize (IH H2). unfold B; lia.
Qed.

Lemma val_lt l : digits l -> val l < B ^ Z.of_nat (length l).
Proof.
  induction l as [|d l IH]; intro H; cbn [val length]; [cbn; lia|].
  apply digits_cons in H as [H1 H2]. specialize (IH H2).
  rewrite Nat2Z.inj_succ, Z.pow_succ_r by lia. 
  assert (val l + 1 <= B ^ Z.of_nat (length l)) by lia.
  assert (B * (val l + 1) <= B * B ^ Z.of_nat (length l)) by (apply Z.mul_le_mono_nonneg_l; [pose proof B_pos; lia | assumption]).
  lia.
Qed.

Lemma val_app l1 l2 : val (l1 ++ l2) = val l1 + B ^ Z.of_nat (length l1) * val l2.
Proof.
  induction l1 as [|d l1 IH]; cbn [app val length]; [change (Z.of_nat 0) with 0; rewrite Z.pow_0_r; ring|].
  rewrite IH, Nat2Z.inj_succ, Z.pow_succ_r by lia. ring.
Qed.

Lemma val_repeat0 n : val (repeat 0 n) = 0.
Proof. induction n; cbn [repeat val]; lia. Qed.

Lemma digits_repeat0 n : digits (repeat 0 n).
Proof. unfold digits. apply Forall_forall. intros x H. apply repeat_spec in H. subst. pose proof B_pos; lia. Qed.
Global Hint Resolve digits_repeat0 : core.

Lemma digits_firstn n l : digits l -> digits (firstn n l).
Proof. unfold digits. intro H. rewrite <- (firstn_skipn n l) in H. apply Forall_app in H. tauto. Qed.
Lemma digits_skipn n l : digits l -> digits (skipn n l).
Proof. unfold digits. intro H. rewrite <- (firstn_skipn n l) in H. apply Forall_app in H. tauto. Qed.
Global Hint Resolve digits_firstn digits_skipn : core.

Lemma val_firstn_skipn n l : (n <= length l)%nat ->
  val l = val (firstn n l) + B ^ Z.of_nat n * val (skipn n l).
Proof.
  intro H. rewrite <- (firstn_skipn n l) at 1. rewrite val_app, firstn_length_le by lia. reflexivity.
Qed.

(** *** Normalisation *)
Lemma normal_nil : normal []. Proof. left; reflexivity. Qed.
Global Hint Resolve normal_nil : core.
Lemma normal_cons d e l : normal (d :: e :: l) <-> normal (e :: l).
Proof. unfold normal. cbn [last]. split; intros [H|H]; try discriminate; right; exact H. Qed.
Lemma normal_one d : normal [d] <-> d <> 0.
Proof. unfold normal; cbn. split; [intros [H|H]; [discriminate|exact H] | auto]. Qed.
Lemma normal_app l1 l2 : l2 <> [] -> normal (l1 ++ l2) <-> normal l2.
Proof.
  intro Hn. induction l1 as [|d l1 IH]; cbn [app]; [tauto|].
  destruct (l1 ++ l2) as [|e l] eqn:E.
  - apply app_eq_nil in E as [_ E]; contradiction.
  - rewrite normal_cons. exact IH.
Qed.
Lemma normal_skipn n l : normal l -> normal (skipn n l).
Proof.
  intro H. destruct (Nat.le_gt_cases (length l) n) as [L|L].
  - rewrite skipn_all2 by lia. auto.
  - rewrite <- (firstn_skipn n l) in H. apply normal_app in H; [exact H|].
    intro E. apply (f_equal (@length Z)) in E. rewrite skipn_length in E. cbn in E. lia.
Qed.

Lemma adjust_digits l : digits l -> digits (adjust l).
Proof.
  induction l as [|d l IH]; intro H; cbn [adjust]; auto.
  apply digits_cons in H as [H1 H2]. specialize (IH H2).
  destruct (adjust l) as [|e r].
  - destruct (d =? 0); auto. apply digits_cons; auto.
  - apply digits_cons; auto.
Qed.
Lemma adjust_val l : val (adjust l) = val l.
Proof.
  induction l as [|d l IH]; cbn [adjust val]; auto.
  rewrite <- IH. destruct (adjust l) as [|e r]; cbn [val].
  - destruct (Z.eqb_spec d 0); cbn [val]; lia.
  - lia.
Qed.
Lemma adjust_normal l : normal (adjust l).
Proof.
  induction l as [|d l IH]; cbn [adjust]; auto.
  destruct (adjust l) as [|e r].
  - destruct (Z.eqb_spec d 0); auto. apply normal_one; auto.
  - apply normal_cons; auto.
Qed.
Global Hint Resolve adjust_digits adjust_normal : core.

Lemma adjust_length l : (length (adjust l) <= length l)%nat.
Proof.
  induction l as [|d l IH]; cbn [adjust length]; auto.
  destruct (adjust l) as [|e r]; cbn [length] in *; [destruct (d =? 0); cbn; lia | lia].
Qed.

Lemma normal_pos d l : digits (d :: l) -> normal (d :: l) -> B ^ Z.of_nat (length l) <= val (d :: l).
Proof.
  revert d; induction l as [|e l IH]; intros d Hd Hn.
  - cbn. apply normal_one in Hn. apply digits_cons in Hd. lia.
  - apply normal_cons in Hn. apply digits_cons in Hd as [H1 H2].
    specialize (IH e H2 Hn). cbn [val length] in *.
    rewrite Nat2Z.inj_succ, Z.pow_succ_r by lia.
    apply Z.le_trans with (B * (e + B * val l)); [apply Z.mul_le_mono_nonneg_l; [pose proof B_pos; lia|exact IH] | lia].
Qed.

Lemma normal_val_pos l : digits l -> normal l -> l <> [] -> 0 < val l.
Proof.
  destruct l as [|d l]; [congruence|]. intros H1 H2 _.
  pose proof (normal_pos _ _ H1 H2). pose proof (Z.pow_pos_nonneg B (Z.of_nat (length l)) B_pos ltac:(lia)). lia.
Qed.

Lemma normal_val_zero l : digits l -> normal l -> val l = 0 -> l = [].
Proof.
  intros H1 H2 H3. destruct l as [|d l]; auto.
  pose proof (normal_val_pos (d::l) H1 H2 ltac:(discriminate)). lia.
Qed.

Lemma normal_adjust l : normal l -> adjust l = l.
Proof.
  induction l as [|d l IH]; auto. intro H. cbn [adjust].
  destruct l as [|e l].
  - cbn. apply normal_one in H. destruct (Z.eqb_spec d 0); congruence.
  - rewrite IH by (apply normal_cons in H; exact H). reflexivity.
Qed.

(** Uniqueness of the digits. *)
Lemma val_inj_len l1 : forall l2, digits l1 -> digits l2 -> length l1 = length l2 ->
  val l1 = val l2 -> l1 = l2.
Proof.
  induction l1 as [|d l1 IH]; intros [|e l2] H1 H2 HL HV; cbn [length] in HL; try lia; auto.
  apply digits_cons in H1 as [Hd H1]. apply digits_cons in H2 as [He H2]. cbn [val] in HV.
  assert (d = e /\ val l1 = val l2) as [-> E].
  { unfold B in *. lia. }
  f_equal. apply IH; auto.
Qed.

Lemma normal_len_lt l1 l2 : digits l1 -> digits l2 -> normal l2 ->
  (length l1 < length l2)%nat -> val l1 < val l2.
Proof.
  intros H1 H2 N L. destruct l2 as [|d l2]; cbn [length] in L; [lia|].
  pose proof (normal_pos _ _ H2 N). pose proof (val_lt _ H1).
  assert (B ^ Z.of_nat (length l1) <= B ^ Z.of_nat (length l2)) by (apply Z.pow_le_mono_r; [auto | lia]).
  lia.
Qed.

Lemma val_inj l1 l2 : digits l1 -> digits l2 -> normal l1 -> normal l2 ->
  val l1 = val l2 -> l1 = l2.
Proof.
  intros H1 H2 N1 N2 HV. apply val_inj_len; auto.
  destruct (Nat.lt_trichotomy (length l1) (length l2)) as [L|[L|L]]; auto.
  - pose proof (normal_len_lt l1 l2 H1 H2 N2 L). lia.
  - pose proof (normal_len_lt l2 l1 H2 H1 N1 L). lia.
Qed.

(** *** Comparison *)
Lemma cmp_digs_spec a : forall b, digits a -> digits b -> length a = length b ->
  cmp_digs a b = Z.sgn (val a - val b).
Proof.
  induction a as [|x a IH]; intros [|y b] Ha Hb HL; cbn [length] in HL; try lia; auto.
  apply digits_cons in Ha as [Hx Ha]. apply digits_cons in Hb as [Hy Hb].
  cbn [cmp_digs val]. rewrite (IH b) by (auto; lia).
  destruct (Z.lt_trichotomy (val a) (val b)) as [L|[L|L]].
  - replace (Z.sgn (val a - val b)) with (-1) by lia. cbn [Z.eqb]. unfold B in *. lia.
  - replace (val a - val b) with 0 by lia. cbn [Z.sgn Z.eqb].
    destruct (Z.ltb_spec x y); [|destruct (Z.ltb_spec y x)]; unfold B in *; lia.
  - replace (Z.sgn (val a - val b)) with 1 by lia. cbn [Z.eqb]. unfold B in *. lia.
Qed.

Lemma cmp_abs_spec a b : wf a -> wf b -> cmp_abs a b = Z.sgn (val (dg a) - val (dg b)).
Proof.
  intros [Ha Na] [Hb Nb]. unfold cmp_abs, used.
  destruct (Nat.ltb_spec (length (dg a)) (length (dg b))) as [L|L].
  - pose proof (normal_len_lt _ _ Ha Hb Nb L). lia.
  - destruct (Nat.ltb_spec (length (dg b)) (length (dg a))) as [L'|L'].
    + pose proof (normal_len_lt _ _ Hb Ha Na L'). lia.
    + apply cmp_digs_spec; auto; lia.
Qed.

(** *** Addition *)
Lemma add_carry_val a : forall c, digits a -> 0 <= c <= 1 ->
  val (add_carry a c) = val a + c /\ digits (add_carry a c).
Proof.
  induction a as [|x a IH]; intros c Ha Hc; cbn [add_carry].
  - destruct (Z.eqb_spec c 0); [subst; cbn; auto|]. cbn [val]. split; [lia|].
    apply digits_cons; split; auto. unfold B; lia.
  - destruct (Z.eqb_spec c 0); [subst; split; [lia|auto]|].
    apply digits_cons in Ha as [Hx Ha]. assert (c = 1) by lia. subst c.
    specialize (IH (if (x+1) mod B =? 0 then 1 else 0) Ha).
    destruct IH as [IH1 IH2]; [destruct (_ =? 0); lia|].
    cbn [val]. rewrite IH1. split.
    + destruct (Z.eqb_spec ((x + 1) mod B) 0) as [E|E]; unfold B in *; lia.
    + apply digits_cons; split; auto. apply Z.mod_pos_bound; auto.
Qed.

Lemma add_loop_val b : forall a c, digits a -> digits b -> (length b <= length a)%nat -> 0 <= c <= 1 ->
  val (add_loop a b c) = val a + val b + c /\ digits (add_loop a b c).
Proof.
  induction b as [|y b IH]; intros a c Ha Hb HL Hc.
  - replace (add_loop a [] c) with (add_carry a c) by (destruct a; reflexivity).
    cbn [val]. destruct (add_carry_val a c Ha Hc). split; [lia|auto].
  - destruct a as [|x a]; cbn [length] in HL; [lia|].
    apply digits_cons in Ha as [Hx Ha]. apply digits_cons in Hb as [Hy Hb].
    cbn [add_loop val].
    set (t := (x + c) mod B). set (l := (t + y) mod B).
    set (c' := (if t <? c then 1 else 0) + (if l <? t then 1 else 0)).
    assert (Hc' : 0 <= c' <= 1 /\ l + B * c' = x + y + c /\ 0 <= l < B).
    { unfold c', l, t. destruct (Z.ltb_spec ((x + c) mod B) c); destruct (Z.ltb_spec (((x + c) mod B + y) mod B) ((x + c) mod B)); unfold B in *; lia. }
    destruct Hc' as (H1 & H2 & H3).
    destruct (IH a c' Ha Hb ltac:(lia) H1) as [IH1 IH2]. rewrite IH1. split.
    + lia.
    + apply digits_cons; auto.
Qed.

Lemma add_carry_normal a : forall c, digits a -> 0 <= c <= 1 -> normal a -> normal (add_carry a c).
Proof.
  induction a as [|x a IH]; intros c Ha Hc Hn; cbn [add_carry].
  - destruct (c =? 0); auto. apply normal_one; lia.
  - destruct (Z.eqb_spec c 0); auto.
    apply digits_cons in Ha as [Hx Ha].
    destruct a as [|e a].
    + cbn [add_carry]. destruct (Z.eqb_spec ((x + 1) mod B) 0).
      * cbn. apply normal_cons, normal_one. lia.
      * cbn. apply normal_one. lia.
    + apply normal_cons in Hn.
      destruct (Z.eqb_spec ((x + 1) mod B) 0) as [E|E].
      * specialize (IH 1 Ha ltac:(lia) Hn).
        cbn [add_carry] in IH |- *. cbn [Z.eqb Pos.eqb] in IH |- *. apply normal_cons; exact IH.
      * cbn [add_carry Z.eqb]. apply normal_cons; exact Hn.
Qed.

Lemma add_carry_len a : forall c, (length a <= length (add_carry a c) <= S (length a))%nat.
Proof.
  induction a as [|x a IH]; intros c; cbn [add_carry]; destruct (c =? 0); cbn [length]; try lia.
  specialize (IH (if (x + 1) mod B =? 0 then 1 else 0)). lia.
Qed.

Lemma add_loop_len b : forall a c, (length b <= length a)%nat ->
  (length a <= length (add_loop a b c) <= S (length a))%nat.
Proof.
  induction b as [|y b IH]; intros a c HL.
  - replace (add_loop a [] c) with (add_carry a c) by (destruct a; reflexivity). apply add_carry_len.
  - destruct a as [|x a]; cbn [length] in *; [lia|]. cbn [add_loop length].
    match goal with |- context [add_loop a b ?c'] => specialize (IH a c' ltac:(lia)) end. lia.
Qed.

(** A list at least as long as a normal list with at least its value is normal
    provided it does not exceed it by a zero digit: used for sums. *)
Lemma last_val_normal l n : digits l -> length l = S n -> B ^ Z.of_nat n <= val l -> normal l.
Proof.
  intros Hd HL Hv. right. intro E.
  destruct (exists_last (l := l) ltac:(destruct l; [discriminate|congruence])) as (l' & d & ->).
  rewrite last_last in E. subst d. rewrite app_length in HL. cbn in HL.
  apply digits_app in Hd as [Hd _]. pose proof (val_lt _ Hd).
  rewrite val_app in Hv. cbn [val] in Hv. replace (length l') with n in * by lia. lia.
Qed.

Lemma add_loop_normal a b : digits a -> digits b -> (length b <= length a)%nat -> normal a ->
  normal (add_loop a b 0).
Proof.
  intros Ha Hb HL Hn.
  destruct (add_loop_val b a 0 Ha Hb HL ltac:(lia)) as [Hv Hd].
  pose proof (add_loop_len b a 0 HL) as Hl. pose proof (val_nonneg _ Hb) as Hb0.
  destruct a as [|x a].
  - destruct b; cbn [length] in HL; [|lia]. cbn. auto.
  - pose proof (normal_pos _ _ Ha Hn) as Hp. cbn [length] in Hl.
    destruct (Nat.eq_dec (length (add_loop (x::a) b 0)) (S (length a))) as [E|E].
    + apply last_val_normal with (n := length a); auto. lia.
    + (* one extra digit: the carry *)
      clear - Hl E HL Ha Hb.
      assert (G : forall b a c, (length b <= length a)%nat -> length (add_loop a b c) = S (length a) -> normal (add_loop a b c)).
      { clear. induction b as [|y b IH]; intros a c HL E.
        - replace (add_loop a [] c) with (add_carry a c) in * by (destruct a; reflexivity). clear HL.
          revert c E. induction a as [|x a IH]; intros c E; cbn [add_carry] in *; destruct (c =? 0); cbn [length] in E; try lia.
          + apply normal_one; lia.
          + injection E as E. specialize (IH _ E).
            destruct (add_carry a _) eqn:Q in *; [cbn in E; lia|]. apply normal_cons. exact IH.
        - destruct a as [|x a]; cbn [length] in HL; [lia|]. cbn [add_loop length] in *.
          injection E as E. specialize (IH a _ ltac:(lia) E).
          destruct (add_loop a b _) eqn:Q in *; [cbn in E; lia|]. apply normal_cons. exact IH. }
      apply G; auto. cbn [length]. lia.
Qed.

Lemma add_abs_spec a b : wf a -> wf b ->
  wf (add_abs a b) /\ val (dg (add_abs a b)) = val (dg a) + val (dg b) /\ neg (add_abs a b) = false.
Proof.
  intros [Ha Na] [Hb Nb]. unfold add_abs, used.
  destruct (Nat.ltb_spec (length (dg a)) (length (dg b))) as [L|L]; cbn [dg neg].
  - destruct (add_loop_val (dg a) (dg b) 0 Hb Ha ltac:(lia) ltac:(lia)).
    repeat split; cbn [dg]; auto; try lia. apply add_loop_normal; auto; lia.
  - destruct (add_loop_val (dg b) (dg a) 0 Ha Hb ltac:(lia) ltac:(lia)).
    repeat split; cbn [dg]; auto; try lia. apply add_loop_normal; auto; lia.
Qed.

(** *** Subtraction *)
Lemma sub_borrow_spec a : forall c, digits a -> 0 <= c <= 1 -> c <= val a ->
  exists r, sub_borrow a c = Some r /\ digits r /\ val r = val a - c.
Proof.
  induction a as [|x a IH]; intros c Ha Hc Hv; cbn [sub_borrow].
  - cbn in Hv. assert (c = 0) by lia. subst. cbn. eauto.
  - destruct (Z.eqb_spec c 0).
    + subst. eexists; repeat split; eauto; lia.
    + apply digits_cons in Ha as [Hx Ha]. cbn [val] in Hv.
      pose proof (val_nonneg _ Ha) as Hn.
      destruct (IH (if x =? 0 then 1 else 0) Ha) as (r & E & Hd & Hr).
      { destruct (x =? 0); lia. }
      { destruct (Z.eqb_spec x 0); unfold B in *; lia. }
      rewrite E. eexists; repeat split; eauto.
      * apply digits_cons; split; auto. apply Z.mod_pos_bound; auto.
      * cbn [val]. rewrite Hr. destruct (Z.eqb_spec x 0); unfold B in *; lia.
Qed.

Lemma sub_loop_spec b : forall a c, digits a -> digits b -> (length b <= length a)%nat ->
  0 <= c <= 1 -> val b + c <= val a ->
  exists r, sub_loop a b c = Some r /\ digits r /\ val r = val a - val b - c.
Proof.
  induction b as [|y b IH]; intros a c Ha Hb HL Hc Hv.
  - replace (sub_loop a [] c) with (sub_borrow a c) by (destruct a; reflexivity).
    cbn [val] in *. destruct (sub_borrow_spec a c Ha Hc ltac:(lia)) as (r & E & Hd & Hr).
    exists r; repeat split; auto; lia.
  - destruct a as [|x a]; cbn [length] in HL; [lia|].
    apply digits_cons in Ha as [Hx Ha]. apply digits_cons in Hb as [Hy Hb]. cbn [sub_loop val] in *.
    set (c' := if x =? y then c else if x <? y then 1 else 0).
    assert (H1 : 0 <= c' <= 1 /\ (x - y - c) mod B = x - y - c + B * c').
    { unfold c'. destruct (Z.eqb_spec x y); [|destruct (Z.ltb_spec x y)]; unfold B in *; lia. }
    destruct H1 as [H1 H2].
    destruct (IH a c' Ha Hb ltac:(lia) H1) as (r & E & Hd & Hr).
    { pose proof (Z.mod_pos_bound (x - y - c) B B_pos). unfold B in *; lia. }
    rewrite E. eexists; repeat split; eauto.
    + apply digits_cons; split; auto. apply Z.mod_pos_bound; auto.
    + cbn [val]. rewrite Hr, H2. lia.
Qed.

Lemma sub_abs_spec a b : wf a -> wf b -> val (dg b) <= val (dg a) ->
  exists r, sub_abs a b = Ok r /\ wf r /\ neg r = false /\ val (dg r) = val (dg a) - val (dg b).
Proof.
  intros Wa Wb H. unfold sub_abs. rewrite cmp_abs_spec by auto.
  destruct (Z.ltb_spec (Z.sgn (val (dg a) - val (dg b))) 0); [lia|].
  destruct Wa as [Ha Na], Wb as [Hb Nb].
  destruct (sub_loop_spec (dg b) (dg a) 0 Ha Hb) as (r & E & Hd & Hr); try lia.
  { destruct (Nat.le_gt_cases (length (dg b)) (length (dg a))) as [L|L]; auto.
    pose proof (normal_len_lt _ _ Ha Hb Nb L). lia. }
  rewrite E. eexists; split; [reflexivity|]. cbn [dg neg]. rewrite adjust_val.
  repeat split; cbn [dg]; auto. lia.
Qed.

Lemma sub_abs_err a b : wf a -> wf b -> val (dg a) < val (dg b) -> sub_abs a b = Err (-1).
Proof.
  intros Wa Wb H. unfold sub_abs. rewrite cmp_abs_spec by auto.
  destruct (Z.ltb_spec (Z.sgn (val (dg a) - val (dg b))) 0); [reflexivity|lia].
Qed.

(** *** Signed addition and subtraction *)
Lemma wf_set_sign s a : wf a -> wf (set_sign s a). Proof. intros H; exact H. Qed.
Lemma wf_mzero : wf mzero. Proof. split; cbn; auto. Qed.
Lemma wf_mone : wf mone.
Proof. split; cbn; [apply digits_cons; split; auto; unfold B; lia | apply normal_one; lia]. Qed.
Global Hint Resolve wf_set_sign wf_mzero wf_mone : core.

Definition canon' (a : mpi) : Prop := dg a = [] -> neg a = false.
Lemma canon_pos a : val (dg a) <> 0 -> canon' a.
Proof. intros H E. rewrite E in H. cbn in H. lia. Qed.

Lemma sgn_1 z : Z.sgn z = 1 <-> 0 < z. Proof. lia. Qed.

Lemma add_spec a b : wf a -> wf b ->
  exists r, add a b = Ok r /\ wf r /\ mval r = mval a + mval b /\
            (canon' a \/ canon' b -> canon' r).
Proof.
  intros Wa Wb. unfold add.
  pose proof (val_nonneg _ (proj1 Wa)) as Pa. pose proof (val_nonneg _ (proj1 Wb)) as Pb.
  destruct (Bool.eqb (neg a) (neg b)) eqn:E.
  - apply Bool.eqb_prop in E. destruct (add_abs_spec a b Wa Wb) as (W & V & N).
    eexists; split; [reflexivity|]. split; [apply wf_set_sign; auto|]. split.
    + unfold mval, set_sign. cbn [neg dg]. rewrite <- E. destruct (neg a); lia.
    + intros C Z0. cbn [set_sign dg neg] in *.
      rewrite Z0 in V. cbn in V.
      assert (dg a = []) by (apply normal_val_zero; [apply Wa|apply Wa|lia]).
      assert (dg b = []) by (apply normal_val_zero; [apply Wb|apply Wb|lia]).
      destruct C as [C|C]; unfold canon' in C; [auto | rewrite E; auto].
  - rewrite cmp_abs_spec by auto.
    destruct (Z.sgn_spec (val (dg a) - val (dg b))) as [[H1 H2]|[[H1 H2]|[H1 H2]]]; rewrite H2.
    + destruct (sub_abs_spec a b Wa Wb ltac:(lia)) as (r & -> & W & N & V). cbn [bind].
      eexists; split; [reflexivity|]. split; auto. split.
      * unfold mval, set_sign; cbn [neg dg]. destruct (neg a), (neg b); cbn in E; try discriminate; lia.
      * intros _. apply canon_pos. cbn. lia.
    + eexists; split; [reflexivity|]. split; auto. split.
      * unfold mval; cbn. destruct (neg a), (neg b); cbn in E; try discriminate; lia.
      * intros _ _. reflexivity.
    + destruct (sub_abs_spec b a Wb Wa ltac:(lia)) as (r & -> & W & N & V). cbn [bind].
      eexists; split; [reflexivity|]. split; auto. split.
      * unfold mval, set_sign; cbn [neg dg]. destruct (neg a), (neg b); cbn in E; try discriminate; lia.
      * intros _. apply canon_pos. cbn. lia.
Qed.

Lemma sub_spec a b : wf a -> wf b ->
  exists r, sub a b = Ok r /\ wf r /\ mval r = mval a - mval b /\
            (canon' a -> canon' r).
Proof.
  intros Wa Wb. unfold sub.
  pose proof (val_nonneg _ (proj1 Wa)) as Pa. pose proof (val_nonneg _ (proj1 Wb)) as Pb.
  destruct (Bool.eqb (neg a) (neg b)) eqn:E; cbn [negb].
  - apply Bool.eqb_prop in E. rewrite cmp_abs_spec by auto.
    destruct (Z.sgn_spec (val (dg a) - val (dg b))) as [[H1 H2]|[[H1 H2]|[H1 H2]]]; rewrite H2.
    + destruct (sub_abs_spec a b Wa Wb ltac:(lia)) as (r & -> & W & N & V). cbn [bind].
      eexists; split; [reflexivity|]. split; auto. split.
      * unfold mval, set_sign; cbn [neg dg]. rewrite <- E. destruct (neg a); lia.
      * intros _. apply canon_pos. cbn. lia.
    + eexists; split; [reflexivity|]. split; auto. split.
      * unfold mval; cbn. rewrite <- E. destruct (neg a); lia.
      * intros _ _. reflexivity.
    + destruct (sub_abs_spec b a Wb Wa ltac:(lia)) as (r & -> & W & N & V). cbn [bind].
      eexists; split; [reflexivity|]. split; auto. split.
      * unfold mval, set_sign; cbn [neg dg]. rewrite <- E. destruct (neg a); cbn; lia.
      * intros _. apply canon_pos. cbn. lia.
  - destruct (add_abs_spec a b Wa Wb) as (W & V & N).
    eexists; split; [reflexivity|]. split; [apply wf_set_sign; auto|]. split.
    + unfold mval, set_sign. cbn [neg dg]. destruct (neg a), (neg b); cbn in E; try discriminate; lia.
    + intros C Z0. cbn [set_sign dg neg] in *. rewrite Z0 in V. cbn in V.
      apply C. apply normal_val_zero; [apply Wa|apply Wa|lia].
Qed.

Lemma cmp_spec a b : canon a -> canon b -> cmp a b = Z.sgn (mval a - mval b).
Proof.
  intros [Wa Ca] [Wb Cb]. unfold cmp, mval.
  pose proof (val_nonneg _ (proj1 Wa)). pose proof (val_nonneg _ (proj1 Wb)).
  destruct (neg a) eqn:Ea, (neg b) eqn:Eb; rewrite ?cmp_abs_spec by auto; try lia.
  - assert (val (dg a) <> 0). { intro E. apply normal_val_zero in E; [|apply Wa|apply Wa]. apply Ca in E. congruence. } lia.
  - assert (val (dg b) <> 0). { intro E. apply normal_val_zero in E; [|apply Wb|apply Wb]. apply Cb in E. congruence. } lia.
Qed.

(** *** Shifts *)
Lemma B_pow2 : B = 2 ^ 64. Proof. reflexivity. Qed.
Lemma Bn_pow2 n : B ^ Z.of_nat n = 2 ^ (64 * Z.of_nat n).
Proof. rewrite B_pow2, <- Z.pow_mul_r by lia. reflexivity. Qed.

Lemma shl_loop_val l : forall d r, digits l -> 0 < d < 64 -> 0 <= r < 2 ^ d ->
  val (shl_loop l d r) = val l * 2 ^ d + r /\ digits (shl_loop l d r).
Proof.
  induction l as [|x l IH]; intros d r Hl Hd Hr; cbn [shl_loop].
  - assert (2 ^ d < B) by (rewrite B_pow2; apply Z.pow_lt_mono_r; lia).
    destruct (Z.eqb_spec r 0).
    + subst; cbn; auto.
    + cbn [val]. split; [lia|]. apply digits_cons; split; [lia|auto].
  - apply digits_cons in Hl as [Hx Hl]. cbn [val].
    rewrite Z.shiftl_mul_pow2 by lia. rewrite land_mask by lia.
    rewrite Z.shiftr_div_pow2 by lia.
    pose proof (pow2_pos d ltac:(lia)) as P1. pose proof (pow2_pos (64 - d) ltac:(lia)) as P2.
    assert (PB : B = 2 ^ (64 - d) * 2 ^ d) by (rewrite B_pow2, (pow2_split 64 d) by lia; ring).
    assert (Q : 0 <= x / 2 ^ (64 - d) < 2 ^ d).
    { split; [apply Z.div_pos; lia|]. apply Z.div_lt_upper_bound; lia. }
    rewrite (Z.mod_small (x / 2 ^ (64 - d))) by exact Q.
    rewrite B_pow2, shl_mod by lia. rewrite <- B_pow2.
    rewrite lor_shifted_small by lia.
    destruct (IH d _ Hl Hd Q) as [IH1 IH2].
    pose proof (Z.div_mod x (2 ^ (64 - d)) ltac:(lia)) as DM.
    pose proof (Z.mod_pos_bound x (2 ^ (64 - d)) P2) as MB.
    split.
    + rewrite IH1. rewrite DM at 3. rewrite PB. ring.
    + apply digits_cons; split; auto. split; [nia|]. rewrite PB.
      assert ((x mod 2 ^ (64 - d) + 1) * 2 ^ d <= 2 ^ (64 - d) * 2 ^ d) by (apply Z.mul_le_mono_nonneg_r; lia). lia.
Qed.

Lemma is_zero_val a : wf a -> is_zero a = (val (dg a) =? 0).
Proof.
  intros [Ha Na]. unfold is_zero. destruct (dg a) as [|d l] eqn:E; [reflexivity|].
  pose proof (normal_val_pos _ Ha Na ltac:(discriminate)).
  destruct (Z.eqb_spec (val (d :: l)) 0); lia.
Qed.

Lemma shld_spec a n : wf a -> wf (shld a n) /\ neg (shld a n) = neg a /\
  val (dg (shld a n)) = val (dg a) * B ^ Z.of_nat n.
Proof.
  intros W. unfold shld. destruct (Nat.eqb_spec n 0) as [->|N].
  - cbn [orb]. change (Z.of_nat 0) with 0. rewrite Z.pow_0_r. repeat split; try apply W; lia.
  - cbn [orb]. rewrite is_zero_val by auto. destruct (Z.eqb_spec (val (dg a)) 0) as [E|E].
    + rewrite E. repeat split; try apply W; lia.
    + cbn [neg dg]. rewrite val_app, val_repeat0, repeat_length. repeat split; cbn [dg].
      * apply digits_app; split; [auto|apply W].
      * apply normal_app; [|apply W]. intro Q. rewrite Q in E. cbn in E. lia.
      * lia.
Qed.

Lemma shl_spec a n : wf a -> 0 <= n -> wf (shl a n) /\ neg (shl a n) = neg a /\
  val (dg (shl a n)) = val (dg a) * 2 ^ n.
Proof.
  intros W Hn. unfold shl. destruct (Z.eqb_spec n 0) as [->|N].
  { cbn [orb]. rewrite Z.pow_0_r. repeat split; try apply W; lia. }
  cbn [orb]. rewrite is_zero_val by auto. destruct (Z.eqb_spec (val (dg a)) 0) as [E|E].
  { rewrite E. repeat split; try apply W; lia. }
  set (c := if 64 <=? n then shld a (Z.to_nat (n / 64)) else a).
  assert (C : wf c /\ neg c = neg a /\ val (dg c) = val (dg a) * 2 ^ (64 * (n / 64))).
  { unfold c. destruct (Z.leb_spec 64 n).
    - destruct (shld_spec a (Z.to_nat (n / 64)) W) as (H1 & H2 & H3).
      rewrite Bn_pow2, Z2Nat.id in H3 by lia. auto.
    - rewrite (Z.div_small n 64) by lia. cbn [Z.mul Z.pow Z.pow_pos]. repeat split; try apply W; lia. }
  destruct C as (WC & NC & VC). clearbody c.
  assert (P : 2 ^ n = 2 ^ (64 * (n / 64)) * 2 ^ (n mod 64)) by (rewrite <- Z.pow_add_r by lia; f_equal; lia).
  destruct (Z.eqb_spec (n mod 64) 0) as [D|D]; cbn [neg dg].
  - rewrite D, Z.pow_0_r in P. repeat split; cbn [dg]; auto; [apply adjust_digits, WC|].
    rewrite adjust_val, VC, P. ring.
  - destruct (shl_loop_val (dg c) (n mod 64) 0 (proj1 WC)) as [V1 V2]; [lia|split; [lia|apply pow2_pos; lia]|].
    repeat split; cbn [dg]; auto. rewrite adjust_val, V1, VC, P. ring.
Qed.

Lemma shr_loop_val l : forall d, digits l -> 0 < d < 64 ->
  val (fst (shr_loop l d)) = val l / 2 ^ d /\ digits (fst (shr_loop l d)) /\
  snd (shr_loop l d) = val l mod 2 ^ d.
Proof.
  induction l as [|x l IH]; intros d Hl Hd; cbn [shr_loop].
  - cbn [fst snd val]. rewrite Z.div_0_l, Z.mod_0_l by (pose proof (pow2_pos d ltac:(lia)); lia). auto.
  - apply digits_cons in Hl as [Hx Hl]. destruct (IH d Hl Hd) as (I1 & I2 & I3).
    destruct (shr_loop l d) as [h r]. cbn [fst snd] in *. cbn [val].
    pose proof (pow2_pos d ltac:(lia)) as P1. pose proof (pow2_pos (64 - d) ltac:(lia)) as P2.
    assert (PB : B = 2 ^ (64 - d) * 2 ^ d) by (rewrite B_pow2, (pow2_split 64 d) by lia; ring).
    rewrite Z.shiftr_div_pow2, Z.shiftl_mul_pow2, land_mask by lia.
    assert (Hr : 0 <= r < 2 ^ d) by (rewrite I3; apply Z.mod_pos_bound; lia).
    rewrite B_pow2, shl_mod by lia. replace (64 - (64 - d)) with d by lia.
    rewrite (Z.mod_small r) by lia. rewrite <- B_pow2.
    assert (Q : 0 <= x / 2 ^ d < 2 ^ (64 - d)).
    { split; [apply Z.div_pos; lia|]. apply Z.div_lt_upper_bound; lia. }
    rewrite lor_small_shifted by lia.
    pose proof (Z.div_mod (val l) (2 ^ d) ltac:(lia)) as DL. rewrite <- I1, <- I3 in DL.
    assert (DV : x + B * val l = (x / 2 ^ d + r * 2 ^ (64 - d) + B * val h) * 2 ^ d + x mod 2 ^ d).
    { pose proof (Z.div_mod x (2 ^ d) ltac:(lia)) as DX. rewrite DX at 1. rewrite DL. rewrite PB. ring. }
    pose proof (Z.mod_pos_bound x (2 ^ d) P1) as MB.
    repeat split.
    + rewrite DV. rewrite Z.div_add_l by lia. rewrite (Z.div_small (x mod 2 ^ d)) by lia. lia.
    + apply digits_cons; split; auto. split; [nia|]. rewrite PB.
      assert ((r + 1) * 2 ^ (64 - d) <= 2 ^ d * 2 ^ (64 - d)) by (apply Z.mul_le_mono_nonneg_r; lia). lia.
    + rewrite DV. rewrite Z.add_comm, Z.mod_add by lia. rewrite Z.mod_mod by lia. reflexivity.
Qed.

Lemma shrd_spec a n : wf a -> wf (shrd a n) /\ val (dg (shrd a n)) = val (dg a) / B ^ Z.of_nat n /\
  (neg (shrd a n) = neg a \/ (dg (shrd a n) = [] /\ neg (shrd a n) = false)).
Proof.
  intros W. unfold shrd. destruct (Nat.eqb_spec n 0) as [->|N].
  { cbn [orb]. change (Z.of_nat 0) with 0. rewrite Z.pow_0_r, Z.div_1_r. repeat split; try apply W; auto. }
  pose proof (Z.pow_pos_nonneg B (Z.of_nat n) B_pos ltac:(lia)) as P.
  cbn [orb]. rewrite is_zero_val by auto. destruct (Z.eqb_spec (val (dg a)) 0) as [E|E].
  { rewrite E, Z.div_0_l by lia. repeat split; try apply W; auto. }
  unfold used. destruct (Nat.leb_spec (length (dg a)) n) as [L|L].
  - repeat split; cbn [dg mzero val]; auto. symmetry. apply Z.div_small. split; [apply val_nonneg, W|].
    apply Z.lt_le_trans with (B ^ Z.of_nat (length (dg a))); [apply val_lt, W|].
    apply Z.pow_le_mono_r; [auto|lia].
  - repeat split; cbn [dg neg]; auto.
    + apply digits_skipn, W.
    + apply normal_skipn, W.
    + rewrite (val_firstn_skipn n (dg a)) by lia.
      rewrite Z.add_comm, Z.mul_comm, Z.div_add_l by lia.
      rewrite (Z.div_small (val (firstn n (dg a)))); [lia|].
      split; [apply val_nonneg, digits_firstn, W|].
      replace n with (length (firstn n (dg a))) at 2 by (rewrite firstn_length_le; lia).
      apply val_lt, digits_firstn, W.
Qed.

Lemma shr_spec a n : wf a -> 0 <= n -> wf (shr a n) /\
  val (dg (shr a n)) = val (dg a) / 2 ^ n /\
  (neg (shr a n) = neg a \/ (dg (shr a n) = [] /\ neg (shr a n) = false)).
Proof.
  intros W Hn. unfold shr. destruct (Z.eqb_spec n 0) as [->|N].
  { cbn [orb]. rewrite Z.pow_0_r, Z.div_1_r. repeat split; try apply W; auto. }
  pose proof (pow2_pos n Hn) as P.
  cbn [orb]. rewrite is_zero_val by auto. destruct (Z.eqb_spec (val (dg a)) 0) as [E|E].
  { rewrite E, Z.div_0_l by lia. repeat split; try apply W; auto. }
  set (c := if 64 <=? n then shrd a (Z.to_nat (n / 64)) else a).
  assert (C : wf c /\ val (dg c) = val (dg a) / 2 ^ (64 * (n / 64)) /\ (neg c = neg a \/ (dg c = [] /\ neg c = false))).
  { unfold c. destruct (Z.leb_spec 64 n).
    - destruct (shrd_spec a (Z.to_nat (n / 64)) W) as (H1 & H2 & H3).
      rewrite Bn_pow2, Z2Nat.id in H2 by lia. auto.
    - rewrite (Z.div_small n 64) by lia. cbn [Z.mul Z.pow Z.pow_pos]. rewrite Z.div_1_r. repeat split; try apply W; auto. }
  destruct C as (WC & VC & NC). clearbody c.
  assert (Q : 2 ^ n = 2 ^ (64 * (n / 64)) * 2 ^ (n mod 64)) by (rewrite <- Z.pow_add_r by lia; f_equal; lia).
  pose proof (pow2_pos (64 * (n / 64)) ltac:(lia)). pose proof (pow2_pos (n mod 64) ltac:(lia)).
  assert (NN : forall l, digits l -> val l <= val (dg c) -> neg c = neg a \/ (adjust l = [] /\ neg c = false)).
  { intros l Dl Hl. destruct NC as [NC|[NC1 NC2]]; [auto|]. right. split; auto.
    rewrite NC1 in Hl. cbn in Hl. pose proof (val_nonneg _ Dl).
    apply normal_val_zero; auto. rewrite adjust_val. lia. }
  destruct (Z.eqb_spec (n mod 64) 0) as [D|D]; cbn [neg dg].
  - rewrite D, Z.pow_0_r, Z.mul_1_r in Q. repeat split; cbn [dg]; auto; [apply adjust_digits, WC| |apply NN; [apply WC|lia]].
    rewrite adjust_val, VC, Q. reflexivity.
  - destruct (shr_loop_val (dg c) (n mod 64) (proj1 WC)) as (V1 & V2 & _); [lia|].
    repeat split; cbn [dg]; auto.
    + rewrite adjust_val, V1, VC, Q. rewrite Z.div_div by lia. reflexivity.
    + apply NN; auto. rewrite V1. pose proof (val_nonneg _ (proj1 WC)). apply Z.div_le_upper_bound; [lia|nia].
Qed.
