(** Trivium: the word-parallel step is 32 clocks of the specification. *)
From Verif Require Import Base Bits BytesSpec Bytes Lists HashModel HashBase TriviumModel TriviumSpec.

(** * Registers as functions *)
Record fst3 := { ra : nat -> bool; rb : nat -> bool; rc : nat -> bool }.
Definition shift (x : bool) (f : nat -> bool) (p : nat) : bool := match p with O => x | S p => f p end.
Definition T1 (f : fst3) (i : nat) : bool := xorb (xorb (ra f (65 - i)) (ra f (92 - i))) (xorb (ra f (90 - i) && ra f (91 - i)) (rb f (77 - i))).
Definition T2 (f : fst3) (i : nat) : bool := xorb (xorb (rb f (68 - i)) (rb f (83 - i))) (xorb (rb f (81 - i) && rb f (82 - i)) (rc f (86 - i))).
Definition T3 (f : fst3) (i : nat) : bool := xorb (xorb (rc f (65 - i)) (rc f (110 - i))) (xorb (rc f (108 - i) && rc f (109 - i)) (ra f (68 - i))).
Definition Zo (f : fst3) (i : nat) : bool :=
  xorb (xorb (xorb (ra f (65 - i)) (ra f (92 - i))) (xorb (rb f (68 - i)) (rb f (83 - i)))) (xorb (rc f (65 - i)) (rc f (110 - i))).
Definition estep (f : fst3) : fst3 := {| ra := shift (T3 f 0) (ra f); rb := shift (T1 f 0) (rb f); rc := shift (T2 f 0) (rc f) |}.

Definition after_n (T : nat -> bool) (g : nat -> bool) (n p : nat) : bool := if Nat.ltb p n then T (n - 1 - p)%nat else g (p - n)%nat.
Lemma after_high T g n p : (n <= p)%nat -> after_n T g n p = g (p - n)%nat.
Proof. intro H. unfold after_n. destruct (Nat.ltb_spec p n); [lia|reflexivity]. Qed.
Lemma shift_after T g n p : shift (T n) (after_n T g n) p = after_n T g (S n) p.
Proof.
  destruct p as [|p]; unfold after_n; cbn [shift].
  - destruct (Nat.ltb_spec 0 (S n)); [f_equal; lia|lia].
  - destruct (Nat.ltb_spec p n), (Nat.ltb_spec (S p) (S n)); try lia; f_equal; lia.
Qed.
Lemma estep_n n f : (n <= 32)%nat -> let g := Nat.iter n estep f in
  (forall p, ra g p = after_n (T3 f) (ra f) n p) /\ (forall p, rb g p = after_n (T1 f) (rb f) n p) /\ (forall p, rc g p = after_n (T2 f) (rc f) n p).
Proof.
  induction n as [|n IH]; intro H.
  - cbn. unfold after_n. repeat split; intro p; rewrite Nat.sub_0_r; reflexivity.
  - destruct IH as (A & B & C); [lia|]. cbv zeta in *. change (Nat.iter (S n) estep f) with (estep (Nat.iter n estep f)). set (g := Nat.iter n estep f) in *.
    assert (E3 : T3 g 0 = T3 f n) by (unfold T3; rewrite !A, !C, !after_high by lia; rewrite !Nat.sub_0_r; reflexivity).
    assert (E1 : T1 g 0 = T1 f n) by (unfold T1; rewrite !A, !B, !after_high by lia; rewrite !Nat.sub_0_r; reflexivity).
    assert (E2 : T2 g 0 = T2 f n) by (unfold T2; rewrite !B, !C, !after_high by lia; rewrite !Nat.sub_0_r; reflexivity).
    cbn [ra rb rc estep]. rewrite E1, E2, E3.
    repeat split; intro p; rewrite <- shift_after; destruct p; cbn [shift]; auto.
Qed.
Lemma Zo_n n f : (n < 32)%nat -> Zo (Nat.iter n estep f) 0 = Zo f n.
Proof.
  intro H. destruct (estep_n n f ltac:(lia)) as (A & B & C). cbv zeta in *. set (g := Nat.iter n estep f) in *. unfold Zo.
  rewrite !A, !B, !C, !after_high by lia. rewrite !Nat.sub_0_r. reflexivity.
Qed.

(** * The specification's list *)
Lemma nth_firstn_lt {A} (d : A) n : forall p l, (p < n)%nat -> nth p (firstn n l) d = nth p l d.
Proof. induction n as [|n IH]; intros p l H; [lia|]. destruct l as [|x l]; [reflexivity|]. destruct p as [|p]; [reflexivity|]. cbn [firstn nth]. apply IH. lia. Qed.
Lemma nth_skipn_add {A} (d : A) n : forall p l, nth p (skipn n l) d = nth (n + p) l d.
Proof. induction n as [|n IH]; intros p l; [reflexivity|]. destruct l as [|x l]; [destruct p; reflexivity|]. cbn [skipn Nat.add nth]. apply IH. Qed.
Definition Rl (s : list bool) (f : fst3) : Prop :=
  length s = 288%nat /\ (forall p, (p < 93)%nat -> nth p s false = ra f p) /\ (forall p, (p < 84)%nat -> nth (93 + p) s false = rb f p) /\
  (forall p, (p < 111)%nat -> nth (177 + p) s false = rc f p).
Lemma clock_ok s f : Rl s f -> fst (clock s) = Zo f 0 /\ Rl (snd (clock s)) (estep f).
Proof.
  intros (L & A & B & C).
  assert (TA : forall i, (1 <= i <= 93)%nat -> tbit s i = ra f (i - 1)%nat) by (intros i Hi; apply A; lia).
  assert (TB : forall i, (94 <= i <= 177)%nat -> tbit s i = rb f (i - 94)%nat).
  { intros i Hi. unfold tbit. replace (i - 1)%nat with (93 + (i - 94))%nat by lia. apply B. lia. }
  assert (TC : forall i, (178 <= i <= 288)%nat -> tbit s i = rc f (i - 178)%nat).
  { intros i Hi. unfold tbit. replace (i - 1)%nat with (177 + (i - 178))%nat by lia. apply C. lia. }
  unfold clock. cbn [fst snd].
  rewrite (TA 66%nat), (TA 93%nat), (TA 91%nat), (TA 92%nat), (TA 69%nat), (TB 162%nat), (TB 177%nat), (TB 171%nat), (TB 175%nat), (TB 176%nat), (TC 243%nat), (TC 288%nat), (TC 264%nat), (TC 286%nat), (TC 287%nat) by lia.
  split; [reflexivity|]. 
  change (xorb (xorb (ra f (66 - 1)) (ra f (93 - 1))) _) with (T1 f 0).
  change (xorb (xorb (rb f (162 - 94)) (rb f (177 - 94))) _) with (T2 f 0).
  change (xorb (xorb (rc f (243 - 178)) (rc f (288 - 178))) _) with (T3 f 0).
  assert (LA : length (T3 f 0 :: firstn 92 s) = 93%nat) by (cbn [length]; rewrite firstn_length; lia).
  assert (LB : length (T1 f 0 :: firstn 83 (skipn 93 s)) = 84%nat) by (cbn [length]; rewrite firstn_length, skipn_length; lia).
  assert (LC : length (T2 f 0 :: firstn 110 (skipn 177 s)) = 111%nat) by (cbn [length]; rewrite firstn_length, skipn_length; lia).
  split; [rewrite !app_length, LA, LB, LC; reflexivity|]. split; [|split]; intros p Hp.
  - rewrite app_nth1 by lia. destruct p as [|p]; [reflexivity|]. cbn [nth ra estep shift]. rewrite nth_firstn_lt by lia. apply A. lia.
  - rewrite app_nth2 by lia. rewrite LA, app_nth1 by lia. replace (93 + p - 93)%nat with p by lia. destruct p as [|p]; [reflexivity|]. cbn [nth rb estep shift].
    rewrite nth_firstn_lt by lia. rewrite nth_skipn_add. apply B. lia.
  - rewrite app_nth2 by lia. rewrite LA, app_nth2 by lia. rewrite LB. replace (177 + p - 93 - 84)%nat with p by lia. destruct p as [|p]; [reflexivity|]. cbn [nth rc estep shift].
    rewrite nth_firstn_lt by lia. rewrite nth_skipn_add. apply C. lia.
Qed.
Lemma after_ok n : forall s f, Rl s f -> Rl (after n s) (Nat.iter n estep f) /\ fst (clock (after n s)) = Zo (Nat.iter n estep f) 0.
Proof.
  induction n as [|n IH]; intros s f H; [split; [exact H|apply clock_ok; auto]|].
  destruct (IH s f H) as [A _]. unfold after in *. change (Nat.iter (S n) ?g ?x) with (g (Nat.iter n g x)). cbv beta.
  destruct (clock_ok _ _ A) as [_ Q]. split; [exact Q|apply clock_ok; exact Q].
Qed.

(** * Words *)
Definition wrd (x : Z) : Prop := 0 <= x < 2 ^ 32.
Definition wb (l : list Z) (p : nat) : bool := Z.testbit (nth (p / 32) l 0) (Z.of_nat (p mod 32)).
Definition Rw (w : list Z) (f : fst3) : Prop :=
  length w = 10%nat /\ Forall wrd w /\ (forall p, (p < 96)%nat -> wb w p = ra f p) /\ (forall p, (p < 96)%nat -> wb w (96 + p) = rb f p) /\
  (forall p, (p < 128)%nat -> wb w (192 + p) = rc f p).
Lemma pair_bit u v k b : wrd u -> wrd v -> 0 < k < 32 -> 0 <= b < 32 ->
  Z.testbit (Z.lor (w32 (Z.shiftl v (32 - k))) (Z.shiftr u k)) b = if b + k <? 32 then Z.testbit u (b + k) else Z.testbit v (b + k - 32).
Proof.
  intros Hu Hv Hk Hb. unfold w32. rewrite Z.lor_spec, Z.mod_pow2_bits_low, Z.shiftl_spec, Z.shiftr_spec by lia. destruct (Z.ltb_spec (b + k) 32) as [H|H].
  - rewrite Z.testbit_neg_r by lia. reflexivity.
  - rewrite (testbit_small u 32 (b + k)) by (auto; lia). rewrite orb_false_r. f_equal. lia.
Qed.
Lemma tap w m k b : Forall wrd w -> (0 < k < 32)%nat -> (b < 32)%nat ->
  Z.testbit (Z.lor (w32 (Z.shiftl (nth (m + 1) w 0) (32 - Z.of_nat k))) (Z.shiftr (nth m w 0) (Z.of_nat k))) (Z.of_nat b) = wb w (32 * m + k + b).
Proof.
  intros W Hk Hb. assert (N : forall i, wrd (nth i w 0)) by (intro i; apply (Forall_nth_d wrd); auto; unfold wrd; lia).
  rewrite pair_bit by (auto; lia). unfold wb. destruct (Z.ltb_spec (Z.of_nat b + Z.of_nat k) 32) as [H|H].
  - replace (32 * m + k + b)%nat with ((k + b) + m * 32)%nat by lia. rewrite Nat.div_add, Nat.mod_add by lia. rewrite Nat.div_small, Nat.mod_small by lia. cbn [Nat.add]. f_equal. lia.
  - replace (32 * m + k + b)%nat with ((k + b - 32) + (m + 1) * 32)%nat by lia. rewrite Nat.div_add, Nat.mod_add by lia. rewrite Nat.div_small, Nat.mod_small by lia. cbn [Nat.add]. f_equal. lia.
Qed.
Lemma S64_tap w m q b : Forall wrd w -> (64 < q < 96)%nat -> (b < 32)%nat ->
  Z.testbit (S64 (nth m w 0) (nth (m + 1) w 0) (Z.of_nat q)) (Z.of_nat b) = wb w (32 * m + (q - 64) + b).
Proof.
  intros W Hq Hb. unfold S64. replace (96 - Z.of_nat q) with (32 - Z.of_nat (q - 64)) by lia. replace (Z.of_nat q - 64) with (Z.of_nat (q - 64)) by lia. apply tap; auto. lia.
Qed.
Lemma S96_tap w m q b : Forall wrd w -> (96 < q < 128)%nat -> (b < 32)%nat ->
  Z.testbit (S96 (nth m w 0) (nth (m + 1) w 0) (Z.of_nat q)) (Z.of_nat b) = wb w (32 * m + (q - 96) + b).
Proof.
  intros W Hq Hb. unfold S96. replace (128 - Z.of_nat q) with (32 - Z.of_nat (q - 96)) by lia. replace (Z.of_nat q - 96) with (Z.of_nat (q - 96)) by lia. apply tap; auto. lia.
Qed.
Lemma wrd_lor a b : wrd a -> wrd b -> wrd (Z.lor a b). Proof. apply lor_bound. lia. Qed.
Lemma wrd_lxor a b : wrd a -> wrd b -> wrd (Z.lxor a b). Proof. apply lxor_bound. lia. Qed.
Lemma wrd_land a b : wrd a -> wrd b -> wrd (Z.land a b).
Proof. intros [A1 A2] [B1 B2]. apply land_bound; lia. Qed.
Lemma wrd_w32 a : wrd (w32 a). Proof. apply Z.mod_pos_bound. lia. Qed.
Lemma wrd_shiftr a k : 0 <= k -> wrd a -> wrd (Z.shiftr a k).
Proof. intros Hk [A1 A2]. rewrite Z.shiftr_div_pow2 by auto. pose proof (Z.pow_pos_nonneg 2 k ltac:(lia) Hk). split; [apply Z.div_pos; lia|]. apply Z.div_lt_upper_bound; nia. Qed.
Lemma wrd_S64 a b q : 64 <= q -> wrd a -> wrd b -> wrd (S64 a b q).
Proof. intros. unfold S64. apply wrd_lor; [apply wrd_w32|apply wrd_shiftr; auto; lia]. Qed.
Lemma wrd_S96 a b q : 96 <= q -> wrd a -> wrd b -> wrd (S96 a b q).
Proof. intros. unfold S96. apply wrd_lor; [apply wrd_w32|apply wrd_shiftr; auto; lia]. Qed.
Lemma list10 {A} (l : list A) : length l = 10%nat -> exists a b c d e f g h i j, l = [a; b; c; d; e; f; g; h; i; j].
Proof. intro L. do 10 (destruct l as [|? l]; [discriminate|]). destruct l; [|discriminate]. repeat eexists. Qed.

Lemma tri_step_ok w f : Rw w f -> wrd (fst (tri_step w)) /\ Rw (snd (tri_step w)) (Nat.iter 32 estep f) /\
  forall i, (i < 32)%nat -> Z.testbit (fst (tri_step w)) (31 - Z.of_nat i) = Zo f i.
Proof.
  intros (L & W & A & B & C).
  assert (TA : forall q b, (64 < q < 96)%nat -> (b < 32)%nat -> Z.testbit (S64 (nth 1 w 0) (nth 2 w 0) (Z.of_nat q)) (Z.of_nat b) = ra f (q - 1 - (31 - b))%nat).
  { intros q b Hq Hb. rewrite (S64_tap w 1) by auto. rewrite A by lia. f_equal. lia. }
  assert (TB : forall q b, (64 < q < 96)%nat -> (b < 32)%nat -> Z.testbit (S64 (nth 4 w 0) (nth 5 w 0) (Z.of_nat q)) (Z.of_nat b) = rb f (q - 1 - (31 - b))%nat).
  { intros q b Hq Hb. rewrite (S64_tap w 4) by auto. replace (32 * 4 + (q - 64) + b)%nat with (96 + (q - 1 - (31 - b)))%nat by lia. apply B. lia. }
  assert (TC : forall q b, (64 < q < 96)%nat -> (b < 32)%nat -> Z.testbit (S64 (nth 7 w 0) (nth 8 w 0) (Z.of_nat q)) (Z.of_nat b) = rc f (q - 1 - (31 - b))%nat).
  { intros q b Hq Hb. rewrite (S64_tap w 7) by auto. replace (32 * 7 + (q - 64) + b)%nat with (192 + (q - 1 - (31 - b)))%nat by lia. apply C. lia. }
  assert (TD : forall q b, (96 < q < 128)%nat -> (b < 32)%nat -> Z.testbit (S96 (nth 8 w 0) (nth 9 w 0) (Z.of_nat q)) (Z.of_nat b) = rc f (q - 1 - (31 - b))%nat).
  { intros q b Hq Hb. rewrite (S96_tap w 8) by auto. replace (32 * 8 + (q - 96) + b)%nat with (192 + (q - 1 - (31 - b)))%nat by lia. apply C. lia. }
  destruct (list10 w L) as (s11 & s12 & s13 & s21 & s22 & s23 & s31 & s32 & s33 & s34 & ->). cbn [nth] in TA, TB, TC, TD.
  assert (W' : wrd s11 /\ wrd s12 /\ wrd s13 /\ wrd s21 /\ wrd s22 /\ wrd s23 /\ wrd s31 /\ wrd s32 /\ wrd s33 /\ wrd s34).
  { clear - W. repeat match goal with H : Forall _ (_ :: _) |- _ => inversion H; clear H; subst end. refine (conj _ (conj _ (conj _ (conj _ (conj _ (conj _ (conj _ (conj _ (conj _ _))))))))); assumption. }
  destruct W' as (W1 & W2 & W3 & W4 & W5 & W6 & W7 & W8 & W9 & W10).
  pose (t1 := Z.lxor (S64 s12 s13 66) (S64 s12 s13 93)). pose (t2 := Z.lxor (S64 s22 s23 69) (S64 s22 s23 84)). pose (t3 := Z.lxor (S64 s32 s33 66) (S96 s33 s34 111)).
  pose (u1 := Z.lxor t1 (Z.lxor (Z.land (S64 s12 s13 91) (S64 s12 s13 92)) (S64 s22 s23 78))).
  pose (u2 := Z.lxor t2 (Z.lxor (Z.land (S64 s22 s23 82) (S64 s22 s23 83)) (S64 s32 s33 87))).
  pose (u3 := Z.lxor t3 (Z.lxor (Z.land (S96 s33 s34 109) (S96 s33 s34 110)) (S64 s12 s13 69))).
  change (tri_step _) with (Z.lxor (Z.lxor t1 t2) t3, [u3; s11; s12; u1; s21; s22; u2; s31; s32; s33]). cbn [fst snd].
  assert (Wt1 : wrd t1) by (unfold t1; apply wrd_lxor; apply wrd_S64; auto; lia).
  assert (Wt2 : wrd t2) by (unfold t2; apply wrd_lxor; apply wrd_S64; auto; lia).
  assert (Wt3 : wrd t3) by (unfold t3; apply wrd_lxor; [apply wrd_S64|apply wrd_S96]; auto; lia).
  assert (Wu1 : wrd u1) by (unfold u1; apply wrd_lxor; auto; apply wrd_lxor; [apply wrd_land|]; apply wrd_S64; auto; lia).
  assert (Wu2 : wrd u2) by (unfold u2; apply wrd_lxor; auto; apply wrd_lxor; [apply wrd_land|]; apply wrd_S64; auto; lia).
  assert (Wu3 : wrd u3) by (unfold u3; apply wrd_lxor; auto; apply wrd_lxor; [apply wrd_land; apply wrd_S96|apply wrd_S64]; auto; lia).
  assert (E1 : forall b, (b < 32)%nat -> Z.testbit u1 (Z.of_nat b) = T1 f (31 - b)).
  { intros b Hb. unfold u1, t1, T1. rewrite !Z.lxor_spec, Z.land_spec. rewrite (TA 66%nat), (TA 93%nat), (TA 91%nat), (TA 92%nat), (TB 78%nat) by lia. reflexivity. }
  assert (E2 : forall b, (b < 32)%nat -> Z.testbit u2 (Z.of_nat b) = T2 f (31 - b)).
  { intros b Hb. unfold u2, t2, T2. rewrite !Z.lxor_spec, Z.land_spec. rewrite (TB 69%nat), (TB 84%nat), (TB 82%nat), (TB 83%nat), (TC 87%nat) by lia. reflexivity. }
  assert (E3 : forall b, (b < 32)%nat -> Z.testbit u3 (Z.of_nat b) = T3 f (31 - b)).
  { intros b Hb. unfold u3, t3, T3. rewrite !Z.lxor_spec, Z.land_spec. rewrite (TC 66%nat), (TD 111%nat), (TD 109%nat), (TD 110%nat), (TA 69%nat) by lia. reflexivity. }
  split; [apply wrd_lxor; auto; apply wrd_lxor; auto|]. split.
  - clearbody u1 u2 u3. clear TA TB TC TD.
    destruct (estep_n 32 f ltac:(lia)) as (QA & QB & QC). cbv zeta in *. set (g := Nat.iter 32 estep f) in *. clearbody g.
    split; [reflexivity|]. split; [repeat (apply Forall_cons; [assumption|]); constructor|].
    assert (Hi : forall (l : list Z) u m p, wb (u :: l) (32 * S m + p) = wb l (32 * m + p)).
    { intros l u m p. unfold wb. replace (32 * S m + p)%nat with ((32 * m + p) + 1 * 32)%nat by lia. rewrite Nat.div_add, Nat.mod_add by lia. rewrite Nat.add_1_r. reflexivity. }
    assert (Lo : forall (l : list Z) u p, (p < 32)%nat -> wb (u :: l) p = Z.testbit u (Z.of_nat p)).
    { intros l u p Hp. unfold wb. rewrite Nat.div_small, Nat.mod_small by auto. reflexivity. }
    split; [|split]; intros p Hp.
    + rewrite QA. unfold after_n. destruct (Nat.ltb_spec p 32) as [H|H]; [rewrite Lo by auto; apply E3; auto|].
      rewrite <- A by lia. replace p with (32 * 1 + (p - 32))%nat at 1 by lia. rewrite Hi. cbn [Nat.mul Nat.add]. unfold wb.
      assert (Hq : ((p - 32) / 32 < 2)%nat) by (apply Nat.div_lt_upper_bound; lia). destruct ((p - 32) / 32)%nat as [|[|]]; [reflexivity|reflexivity|lia].
    + rewrite QB. unfold after_n. change 96%nat with (32 * 3)%nat at 1. rewrite !Hi. cbn [Nat.mul Nat.add].
      destruct (Nat.ltb_spec p 32) as [H|H]; [rewrite Lo by auto; apply E1; auto|].
      rewrite <- B by lia. replace p with (32 * 1 + (p - 32))%nat at 1 by lia. rewrite Hi. change (96 + (p - 32))%nat with (32 * 3 + (p - 32))%nat. rewrite !Hi. cbn [Nat.mul Nat.add]. unfold wb.
      assert (Hq : ((p - 32) / 32 < 2)%nat) by (apply Nat.div_lt_upper_bound; lia). destruct ((p - 32) / 32)%nat as [|[|]]; [reflexivity|reflexivity|lia].
    + rewrite QC. unfold after_n. change 192%nat with (32 * 6)%nat at 1. rewrite !Hi. cbn [Nat.mul Nat.add].
      destruct (Nat.ltb_spec p 32) as [H|H]; [rewrite Lo by auto; apply E2; auto|].
      rewrite <- C by lia. replace p with (32 * 1 + (p - 32))%nat at 1 by lia. rewrite Hi. change (192 + (p - 32))%nat with (32 * 6 + (p - 32))%nat. rewrite !Hi. cbn [Nat.mul Nat.add]. unfold wb.
      assert (Hq : ((p - 32) / 32 < 3)%nat) by (apply Nat.div_lt_upper_bound; lia). destruct ((p - 32) / 32)%nat as [|[|[|]]]; [reflexivity|reflexivity|reflexivity|lia].
  - intros i Hi. replace (31 - Z.of_nat i) with (Z.of_nat (31 - i)) by lia. unfold t1, t2, t3, Zo. rewrite !Z.lxor_spec.
    rewrite (TA 66%nat), (TA 93%nat), (TB 69%nat), (TB 84%nat), (TC 66%nat), (TD 111%nat) by lia. replace (31 - (31 - i))%nat with i by lia. reflexivity.
Qed.
