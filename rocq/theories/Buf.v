(** Lemmas on memory areas, and the modes of operation on them. *)
From Verif Require Import Base Lists MemxorModel Memxor ModesModel ModesSpec Modes BufModel BufSpec.

Ltac plc := unfold sep, forward, same_or_sep, outside, disj in *; try lia.

Lemma read_length m a n : length (read m a n) = n.
Proof. unfold read. now rewrite map_length, seq_length. Qed.
Lemma read_nth m a n i : (i < n)%nat -> nth i (read m a n) 0 = m (a + Z.of_nat i).
Proof.
  intros H. unfold read. rewrite (nth_indep _ 0 (m (a + Z.of_nat 0))) by (rewrite map_length, seq_length; auto).
  rewrite (map_nth (fun i => m (a + Z.of_nat i))). now rewrite seq_nth by auto.
Qed.
Lemma read_ext m m' a n : (forall x, a <= x < a + Z.of_nat n -> m' x = m x) -> read m' a n = read m a n.
Proof. intros H. unfold read. apply map_ext_in. intros i Hi. apply in_seq in Hi. apply H. lia. Qed.
Lemma read_S m a n : read m a (S n) = m a :: read m (a + 1) n.
Proof.
  unfold read. cbn [seq map]. f_equal; [f_equal; lia|]. rewrite <- seq_shift, map_map. apply map_ext. intros i. f_equal. lia.
Qed.
Lemma read_app m p : forall a q, read m a (p + q) = read m a p ++ read m (a + Z.of_nat p) q.
Proof.
  induction p; intros a q.
  - cbn [Nat.add]. replace (a + Z.of_nat 0) with a by lia. reflexivity.
  - cbn [Nat.add]. rewrite !read_S, IHp. cbn [app]. do 3 f_equal. lia.
Qed.
Lemma read_firstn m a n k : (k <= n)%nat -> firstn k (read m a n) = read m a k.
Proof.
  intros H. replace n with (k + (n - k))%nat by lia. rewrite read_app, firstn_app, read_length.
  replace (k - k)%nat with O by lia. rewrite firstn_O, app_nil_r. rewrite <- (read_length m a k) at 1. apply firstn_all.
Qed.
Lemma read_skipn m a n k : (k <= n)%nat -> skipn k (read m a n) = read m (a + Z.of_nat k) (n - k).
Proof.
  intros H. replace n with (k + (n - k))%nat at 1 by lia. rewrite read_app, skipn_app, read_length.
  replace (k - k)%nat with O by lia. rewrite <- (read_length m a k) at 1. rewrite skipn_all. reflexivity.
Qed.

(** [m'] is [m] with [l] stored at [d] *)
Definition puts (m m' : mem) (d : Z) (l : list Z) : Prop :=
  forall x, m' x = if inb x d (length l) then nth (Z.to_nat (x - d)) l 0 else m x.
Lemma puts_out m m' d l x : puts m m' d l -> outside x d (length l) -> m' x = m x.
Proof. intros P O. rewrite P. unfold inb. plc. destruct (Z.leb_spec d x), (Z.ltb_spec x (d + Z.of_nat (length l))); cbn [andb]; auto; lia. Qed.
Lemma puts_in m m' d l i : puts m m' d l -> (i < length l)%nat -> m' (d + Z.of_nat i) = nth i l 0.
Proof.
  intros P H. rewrite P. unfold inb.
  destruct (Z.leb_spec d (d + Z.of_nat i)); [|lia]. destruct (Z.ltb_spec (d + Z.of_nat i) (d + Z.of_nat (length l))); [|lia].
  cbn [andb]. f_equal. lia.
Qed.
Lemma puts_read m m' d l : puts m m' d l -> read m' d (length l) = l.
Proof.
  intros P. apply (list_eq 0); rewrite read_length; auto. intros i H. rewrite read_nth by auto. now apply puts_in with (m := m).
Qed.
Lemma puts_read_n m m' d l n : puts m m' d l -> n = length l -> read m' d n = l.
Proof. intros P ->. now apply puts_read with (m := m). Qed.
Lemma puts_frame m m' d l a n : puts m m' d l -> sep a n d (length l) -> read m' a n = read m a n.
Proof. intros P S. apply read_ext. intros x Hx. apply (puts_out _ _ _ _ _ P). plc. Qed.
Lemma puts_intro m m' d n l : length l = n -> (forall i, (i < n)%nat -> m' (d + Z.of_nat i) = nth i l 0) ->
  (forall x, outside x d n -> m' x = m x) -> puts m m' d l.
Proof.
  intros L I O x. unfold inb. destruct (Z.leb_spec d x), (Z.ltb_spec x (d + Z.of_nat (length l))); cbn [andb]; try (apply O; plc; fail).
  rewrite <- I by lia. f_equal. lia.
Qed.

Lemma write_puts l : forall m d, puts m (write m d l) d l.
Proof.
  induction l as [|b l IH]; intros m d x; cbn [write length].
  - unfold inb. destruct (Z.leb_spec d x), (Z.ltb_spec x (d + Z.of_nat 0)); cbn [andb]; auto; lia.
  - rewrite (IH (put m d b) (d + 1) x). unfold inb, put.
    destruct (Z.leb_spec (d + 1) x), (Z.ltb_spec x (d + 1 + Z.of_nat (length l))), (Z.leb_spec d x), (Z.ltb_spec x (d + Z.of_nat (S (length l)))), (Z.eqb_spec x d);
      cbn [andb]; try lia; auto.
    + replace (Z.to_nat (x - d)) with (S (Z.to_nat (x - (d + 1)))) by lia. reflexivity.
    + subst x. replace (Z.to_nat (d - d)) with O by lia. reflexivity.
Qed.
Lemma memcpy_puts m d s n : sep d n s n -> exists m', memcpy m d s n = Ok m' /\ puts m m' d (read m s n).
Proof.
  intros S. unfold memcpy. exists (copy n m d s). split.
  - destruct (Z.leb_spec (d + Z.of_nat n) s), (Z.leb_spec (s + Z.of_nat n) d); rewrite ?orb_true_r; auto. plc.
  - apply (puts_intro _ _ _ n); [apply read_length| |].
    + intros i Hi. rewrite copy_ok by plc. rewrite read_nth by auto.
      destruct (inr_spec (d + Z.of_nat i) d n); [|lia]. f_equal. lia.
    + intros x O. rewrite copy_ok by plc. plc. destruct (inr_spec x d n); auto; lia.
Qed.
Lemma memxor_puts m d s n : puts m (memxor m d s n) d (xorl (read m d n) (read m s n)).
Proof.
  assert (L : length (xorl (read m d n) (read m s n)) = n) by (rewrite xorl_length_eq; now rewrite ?read_length).
  apply (puts_intro _ _ _ n); auto.
  - intros i Hi. rewrite memxor_ok, nth_xorl, !read_nth by (rewrite ?read_length; auto).
    destruct (Z.leb_spec d (d + Z.of_nat i)); [|lia]. destruct (Z.ltb_spec (d + Z.of_nat i) (d + Z.of_nat n)); [|lia]. cbn [andb]. f_equal. f_equal. lia.
  - intros x O. rewrite memxor_ok. plc. destruct (Z.leb_spec d x), (Z.ltb_spec x (d + Z.of_nat n)); cbn [andb]; auto; lia.
Qed.
(** cry_memxor2 needs no memory and is right when one source is apart from the destination. *)
Lemma memxor2_puts T m d a b n : sep d n a n \/ sep d n b n ->
  exists m', memxor2 T m d a b n = Ok m' /\ puts m m' d (xorl (read m a n) (read m b n)).
Proof.
  intros S. assert (L : length (xorl (read m a n) (read m b n)) = n) by (rewrite xorl_length_eq; now rewrite ?read_length).
  assert (W : exists lo hi, (if b <? a then (b, a) else (a, b)) = (lo, hi) /\ lo <= hi /\ (sep d n lo n \/ sep d n hi n) /\
    (forall i, (i < n)%nat -> Z.lxor (m (lo + Z.of_nat i)) (m (hi + Z.of_nat i)) = nth i (xorl (read m a n) (read m b n)) 0)).
  { destruct (Z.ltb_spec b a); [exists b, a|exists a, b]; (split; [reflexivity|]; split; [lia|]; split; [tauto|]);
      intros i Hi; rewrite nth_xorl, !read_nth by (rewrite ?read_length; auto); auto. apply Z.lxor_comm. }
  destruct W as (lo & hi & W & LE & S' & X). unfold memxor2. cbn [memxor2_f]. rewrite W.
  destruct ((d <=? lo) || ((lo + Z.of_nat n <=? d) && (d <=? hi)))%bool eqn:C1.
  - eexists. split; [reflexivity|]. apply (puts_intro _ _ _ n); auto.
    + intros i Hi. rewrite up2_ok by lia. destruct (inr_spec (d + Z.of_nat i) d n); [|lia]. rewrite <- X by auto. f_equal; f_equal; lia.
    + intros x O. rewrite up2_ok by lia. plc. destruct (inr_spec x d n); auto; lia.
  - destruct ((hi <=? d) || ((lo <=? d) && (d + Z.of_nat n <=? hi)))%bool eqn:C2; [|exfalso; plc].
    eexists. split; [reflexivity|]. apply (puts_intro _ _ _ n); auto.
    + intros i Hi. rewrite down2_ok by lia. destruct (inr_spec (d + Z.of_nat i) d n); [|lia]. rewrite <- X by auto. f_equal; f_equal; lia.
    + intros x O. rewrite down2_ok by lia. plc. destruct (inr_spec x d n); auto; lia.
Qed.
Lemma crypt1_puts n E m d s : puts m (crypt_m 1 n E m d s) d (E (read m s n)).
Proof. cbn [crypt_m]. apply write_puts. Qed.
Lemma puts_app m m1 m2 d l1 l2 : puts m m1 d l1 -> puts m1 m2 (d + Z.of_nat (length l1)) l2 -> puts m m2 d (l1 ++ l2).
Proof.
  intros P1 P2. apply (puts_intro _ _ _ (length l1 + length l2)); [apply app_length| |].
  - intros i Hi. destruct (Nat.ltb_spec i (length l1)).
    + rewrite app_nth1 by auto. rewrite (puts_out _ _ _ _ _ P2) by plc. now apply puts_in with (m := m).
    + rewrite app_nth2 by auto. rewrite <- (puts_in _ _ _ _ (i - length l1) P2) by lia. f_equal. lia.
  - intros x O. rewrite (puts_out _ _ _ _ _ P2) by plc. apply (puts_out _ _ _ _ _ P1). plc.
Qed.
Lemma puts_nil m d : puts m m d [].
Proof. intros x. unfold inb. cbn [length]. destruct (Z.leb_spec d x), (Z.ltb_spec x (d + Z.of_nat 0)); cbn [andb]; auto; lia. Qed.

(** * Several blocks *)
Lemma chunks_read m a n k : (0 < n)%nat -> chunks n (read m a (S k * n)) = read m a n :: chunks n (read m (a + Z.of_nat n) (k * n)).
Proof.
  intros Hn. cbn [Nat.mul]. rewrite read_app. apply chunks_app; [auto|apply read_length].
Qed.
