(** Proofs about cry_memxor and cry_memxor2. *)
From Verif Require Import Base MemxorModel.

Ltac put_simpl := unfold put in *;
  repeat match goal with |- context [?a =? ?b] => destruct (Z.eqb_spec a b); try lia
                       | H : context [?a =? ?b] |- _ => destruct (Z.eqb_spec a b); try lia end.

Ltac rng := repeat match goal with |- context [?a <=? ?b] => destruct (Z.leb_spec a b); try lia
                                | |- context [?a <? ?b] => destruct (Z.ltb_spec a b); try lia end.

Definition inr (a base : Z) (n : nat) : bool := ((base <=? a) && (a <? base + Z.of_nat n))%bool.

Lemma inr_spec a base n : Bool.reflect (base <= a < base + Z.of_nat n) (inr a base n).
Proof. apply Bool.iff_reflect. unfold inr. lia. Qed.

Lemma xor_up_ok n : forall m dst src x, dst <= src ->
  xor_up n m dst src x = if inr x dst n then Z.lxor (m x) (m (src + (x - dst))) else m x.
Proof.
  induction n as [|n IH]; intros m dst src x H; cbn [xor_up].
  - destruct (inr_spec x dst 0); [lia|reflexivity].
  - rewrite IH by lia. destruct (inr_spec x (dst + 1) n) as [I|I].
    + destruct (inr_spec x dst (S n)); [|lia]. unfold put. destruct (Z.eqb_spec x dst); [lia|].
      destruct (Z.eqb_spec (src + 1 + (x - (dst + 1))) dst); [lia|]. do 2 f_equal. lia.
    + unfold put. destruct (Z.eqb_spec x dst) as [->|N].
      * destruct (inr_spec dst dst (S n)); [|lia]. do 2 f_equal. lia.
      * destruct (inr_spec x dst (S n)); [lia|reflexivity].
Qed.

Lemma xor_down_ok n : forall m dst src x, src < dst ->
  xor_down n m dst src x = if inr x dst n then Z.lxor (m x) (m (src + (x - dst))) else m x.
Proof.
  induction n as [|n IH]; intros m dst src x H; cbn [xor_down].
  - destruct (inr_spec x dst 0); [lia|reflexivity].
  - rewrite IH by lia. destruct (inr_spec x dst n) as [I|I].
    + destruct (inr_spec x dst (S n)); [|lia]. unfold put. destruct (Z.eqb_spec x (dst + Z.of_nat n)); [lia|].
      destruct (Z.eqb_spec (src + (x - dst)) (dst + Z.of_nat n)); [lia|]. reflexivity.
    + unfold put. destruct (Z.eqb_spec x (dst + Z.of_nat n)) as [->|N].
      * destruct (inr_spec (dst + Z.of_nat n) dst (S n)); [|lia]. do 2 f_equal. lia.
      * destruct (inr_spec x dst (S n)); [lia|reflexivity].
Qed.

Lemma memxor_ok m dst src n x :
  memxor m dst src n x = if ((dst <=? x) && (x <? dst + Z.of_nat n))%bool then Z.lxor (m x) (m (src + (x - dst))) else m x.
Proof. unfold memxor. destruct (Z.leb_spec dst src); [apply xor_up_ok|apply xor_down_ok]; auto. Qed.

Lemma up2_ok n : forall m dst a b x, dst <= a \/ a + Z.of_nat n <= dst -> dst <= b \/ b + Z.of_nat n <= dst ->
  up2 n m dst a b x = if inr x dst n then Z.lxor (m (a + (x - dst))) (m (b + (x - dst))) else m x.
Proof.
  induction n as [|n IH]; intros m dst a b x Ha Hb; cbn [up2].
  - destruct (inr_spec x dst 0); [lia|reflexivity].
  - rewrite IH by lia. destruct (inr_spec x (dst + 1) n) as [I|I].
    + destruct (inr_spec x dst (S n)); [|lia]. unfold put.
      destruct (Z.eqb_spec (a + 1 + (x - (dst + 1))) dst); [lia|]. destruct (Z.eqb_spec (b + 1 + (x - (dst + 1))) dst); [lia|].
      f_equal; f_equal; lia.
    + unfold put. destruct (Z.eqb_spec x dst) as [->|N].
      * destruct (inr_spec dst dst (S n)); [|lia]. f_equal; f_equal; lia.
      * destruct (inr_spec x dst (S n)); [lia|reflexivity].
Qed.

Lemma down2_ok n : forall m dst a b x, a <= dst \/ dst + Z.of_nat n <= a -> b <= dst \/ dst + Z.of_nat n <= b ->
  down2 n m dst a b x = if inr x dst n then Z.lxor (m (a + (x - dst))) (m (b + (x - dst))) else m x.
Proof.
  induction n as [|n IH]; intros m dst a b x Ha Hb; cbn [down2].
  - destruct (inr_spec x dst 0); [lia|reflexivity].
  - rewrite IH by lia. destruct (inr_spec x dst n) as [I|I].
    + destruct (inr_spec x dst (S n)); [|lia]. unfold put.
      destruct (Z.eqb_spec (a + (x - dst)) (dst + Z.of_nat n)); [lia|]. destruct (Z.eqb_spec (b + (x - dst)) (dst + Z.of_nat n)); [lia|].
      reflexivity.
    + unfold put. destruct (Z.eqb_spec x (dst + Z.of_nat n)) as [->|N].
      * destruct (inr_spec (dst + Z.of_nat n) dst (S n)); [|lia]. f_equal; f_equal; lia.
      * destruct (inr_spec x dst (S n)); [lia|reflexivity].
Qed.

Lemma copy_ok n : forall m dst src x, dst + Z.of_nat n <= src \/ src + Z.of_nat n <= dst ->
  copy n m dst src x = if inr x dst n then m (src + (x - dst)) else m x.
Proof.
  induction n as [|n IH]; intros m dst src x H; cbn [copy].
  - destruct (inr_spec x dst 0); [lia|reflexivity].
  - rewrite IH by lia. destruct (inr_spec x (dst + 1) n) as [I|I].
    + destruct (inr_spec x dst (S n)); [|lia]. unfold put. destruct (Z.eqb_spec (src + 1 + (x - (dst + 1))) dst); [lia|]. f_equal. lia.
    + unfold put. destruct (Z.eqb_spec x dst) as [->|N].
      * destruct (inr_spec dst dst (S n)); [|lia]. f_equal. lia.
      * destruct (inr_spec x dst (S n)); [lia|reflexivity].
Qed.

Definition disj (a b n : Z) : Prop := a + n <= b \/ b + n <= a.

(** The placements the rotation branch (case 3) is taken for. *)
Definition straddles (dst s1 s2 n : Z) : Prop :=
  Z.min s1 s2 < dst /\ dst < Z.min s1 s2 + n /\ Z.min s1 s2 + n < Z.max s1 s2 /\ Z.max s1 s2 < dst + n.

Definition inb (a base : Z) (n : nat) : bool := ((base <=? a) && (a <? base + Z.of_nat n))%bool.

Lemma memxor2_ok m dst s1 s2 n t : ~ straddles dst s1 s2 (Z.of_nat n) ->
  disj t s1 (Z.of_nat n) -> disj t s2 (Z.of_nat n) -> disj t dst (Z.of_nat n) ->
  exists m', memxor2 (Some t) m dst s1 s2 n = Ok m' /\
    forall x, inb x t n = false ->
      m' x = if inb x dst n then Z.lxor (m (s1 + (x - dst))) (m (s2 + (x - dst))) else m x.
Proof.
  intros NS D1 D2 DD. unfold disj, straddles, inb in *. fold (inr) in *.
  assert (G : forall lo hi, (lo = s1 /\ hi = s2 \/ lo = s2 /\ hi = s1) -> lo <= hi ->
    (if s2 <? s1 then (s2, s1) else (s1, s2)) = (lo, hi) \/ s1 = s2).
  { intros lo hi [[-> ->]|[-> ->]] L; destruct (Z.ltb_spec s2 s1); auto; right; lia. }
  assert (SW : exists lo hi, (if s2 <? s1 then (s2, s1) else (s1, s2)) = (lo, hi) /\ (lo = s1 /\ hi = s2 \/ lo = s2 /\ hi = s1) /\ lo = Z.min s1 s2 /\ hi = Z.max s1 s2).
  { destruct (Z.ltb_spec s2 s1); eexists; eexists; split; try reflexivity; lia. }
  clear G. destruct SW as (lo & hi & SW & PERM & EL & EH). rewrite <- EL, <- EH in NS.
  assert (X : forall x, Z.lxor (m (s1 + (x - dst))) (m (s2 + (x - dst))) = Z.lxor (m (lo + (x - dst))) (m (hi + (x - dst)))).
  { intro x. destruct PERM as [[-> ->]|[-> ->]]; auto. apply Z.lxor_comm. }
  assert (LH : lo <= hi) by lia. assert (T1 : t + Z.of_nat n <= lo \/ lo + Z.of_nat n <= t) by lia.
  assert (T2 : t + Z.of_nat n <= hi \/ hi + Z.of_nat n <= t) by lia.
  unfold memxor2. cbn [memxor2_f]. rewrite SW.
  destruct ((dst <=? lo) || ((lo + Z.of_nat n <=? dst) && (dst <=? hi)))%bool eqn:C1.
  { eexists; split; [reflexivity|]. intros x _. rewrite up2_ok by lia. rewrite X. reflexivity. }
  destruct ((hi <=? dst) || ((lo <=? dst) && (dst + Z.of_nat n <=? hi)))%bool eqn:C2.
  { eexists; split; [reflexivity|]. intros x _. rewrite down2_ok by lia. rewrite X. reflexivity. }
  destruct (Z.ltb_spec (lo + Z.of_nat n) hi); [exfalso; apply NS; lia|].
  assert (SW2 : (if hi <? lo then (hi, lo) else (lo, hi)) = (lo, hi)) by (destruct (Z.ltb_spec hi lo); [lia|reflexivity]). rewrite SW2.
  assert (INNER : exists m1, (if ((t <=? lo) || ((lo + Z.of_nat n <=? t) && (t <=? hi)))%bool then Ok (up2 n m t lo hi)
      else if ((hi <=? t) || ((lo <=? t) && (t + Z.of_nat n <=? hi)))%bool then Ok (down2 n m t lo hi) else Fuel) = Ok m1 /\
      forall x, m1 x = if inr x t n then Z.lxor (m (lo + (x - t))) (m (hi + (x - t))) else m x).
  { destruct ((t <=? lo) || ((lo + Z.of_nat n <=? t) && (t <=? hi)))%bool eqn:E1.
    - eexists; split; [reflexivity|]. intro x. apply up2_ok; lia.
    - destruct ((hi <=? t) || ((lo <=? t) && (t + Z.of_nat n <=? hi)))%bool eqn:E2; [|lia].
      eexists; split; [reflexivity|]. intro x. apply down2_ok; lia. }
  destruct INNER as (m1 & E & M1).
  destruct ((t <=? lo) || ((lo + Z.of_nat n <=? t) && (t <=? hi)))%bool eqn:E1;
    [|destruct ((hi <=? t) || ((lo <=? t) && (t + Z.of_nat n <=? hi)))%bool eqn:E2; [|discriminate]];
  injection E as E; rewrite E; cbn [bind]; (eexists; split; [reflexivity|]);
  intros x OUT; rewrite copy_ok by lia; fold (inr x dst n); fold (inr x t n) in OUT; destruct (inr_spec x dst n) as [I|I];
  rewrite M1; try (rewrite OUT; reflexivity); rewrite X;
  (destruct (inr_spec (t + (x - dst)) t n); [|lia]); f_equal; f_equal; lia.
Qed.
