(** Determinants: expansion along every row, transpose, product. *)
From Verif Require Import Base DetSpec.

Lemma sum_ext n f g : (forall k, (k < n)%nat -> f k = g k) -> sum n f = sum n g.
Proof. induction n as [|n IH]; intro H; cbn; auto. rewrite IH, H by (intros; auto). reflexivity. Qed.
Lemma sum_add n f g : sum n (fun k => f k + g k) = sum n f + sum n g.
Proof. induction n as [|n IH]; cbn; [reflexivity|]. rewrite IH. lia. Qed.
Lemma sum_mul n a f : sum n (fun k => a * f k) = a * sum n f.
Proof. induction n as [|n IH]; cbn; [lia|]. rewrite IH. lia. Qed.
Lemma sum_mul_r n a f : sum n (fun k => f k * a) = sum n f * a.
Proof. induction n as [|n IH]; cbn; [lia|]. rewrite IH. lia. Qed.
Lemma sum_0 n : sum n (fun _ => 0) = 0.
Proof. induction n as [|n IH]; cbn; [reflexivity|]. lia. Qed.
Lemma sum_swap n m f : sum n (fun i => sum m (fun j => f i j)) = sum m (fun j => sum n (fun i => f i j)).
Proof.
  induction n as [|n IH]; cbn [sum]; [symmetry; apply sum_0|]. rewrite IH, <- sum_add. reflexivity.
Qed.
Lemma sum_one n i f : (i < n)%nat -> (forall k, (k < n)%nat -> k <> i -> f k = 0) -> sum n f = f i.
Proof.
  induction n as [|n IH]; intros Hi H; [lia|]. cbn [sum]. destruct (Nat.eq_dec i n) as [->|N].
  - rewrite (sum_ext n f (fun _ => 0)) by (intros; apply H; lia). rewrite sum_0. lia.
  - rewrite IH by (auto; lia). rewrite (H n) by lia. lia.
Qed.

Lemma skip_lt i k n : (k < n)%nat -> (skip i k < S n)%nat.
Proof. unfold skip. destruct (Nat.ltb_spec k i); lia. Qed.
Lemma skip_ne i k : skip i k <> i.
Proof. unfold skip. destruct (Nat.ltb_spec k i); lia. Qed.
Lemma skip_inj i a b : skip i a = skip i b -> a = b.
Proof. unfold skip. destruct (Nat.ltb_spec a i), (Nat.ltb_spec b i); lia. Qed.
Lemma skip_ex i l n : (l < S n)%nat -> l <> i -> (i < S n)%nat -> exists k, (k < n)%nat /\ skip i k = l.
Proof.
  intros H N Hi. destruct (le_lt_dec i l).
  - exists (l - 1)%nat. unfold skip. destruct (Nat.ltb_spec (l - 1) i); lia.
  - exists l. unfold skip. destruct (Nat.ltb_spec l i); lia.
Qed.
Lemma sum_skip n i g : (i < S n)%nat -> sum n (fun k => g (skip i k)) = sum (S n) g - g i.
Proof.
  induction n as [|n IH]; intro Hi.
  - replace i with O by lia. cbn. lia.
  - cbn [sum]. destruct (Nat.eq_dec i (S n)) as [->|N].
    + replace (skip (S n) n) with n by (unfold skip; destruct (Nat.ltb_spec n (S n)); lia).
      rewrite (sum_ext n _ g); [lia|]. intros k Hk. unfold skip. destruct (Nat.ltb_spec k (S n)); [reflexivity|lia].
    + rewrite IH by lia. replace (skip i n) with (S n) by (unfold skip; destruct (Nat.ltb_spec n i); lia). cbn [sum]. lia.
Qed.
(** Ordered pairs of different indices, enumerated from either side. *)
Lemma sum_pairs n f : sum (S n) (fun j => sum n (fun k => f j (skip j k))) = sum (S n) (fun l => sum n (fun k => f (skip l k) l)).
Proof.
  rewrite (sum_ext (S n) (fun j => sum n (fun k => f j (skip j k))) (fun j => sum (S n) (fun l => f j l) + -1 * f j j)).
  2: { intros j Hj. rewrite (sum_skip n j (fun l => f j l)) by auto. lia. }
  rewrite (sum_ext (S n) (fun l => sum n (fun k => f (skip l k) l)) (fun l => sum (S n) (fun j => f j l) + -1 * f l l)).
  2: { intros l Hl. rewrite (sum_skip n l (fun j => f j l)) by auto. lia. }
  rewrite !sum_add. f_equal. apply sum_swap.
Qed.

Lemma sgn_S k : sgn (S k) = - sgn k.
Proof. unfold sgn. rewrite Nat.even_succ, <- Nat.negb_even. destruct (Nat.even k); reflexivity. Qed.
Lemma sgn_add a b : sgn (a + b) = sgn a * sgn b.
Proof. induction a as [|a IH]; [cbn [Nat.add]; unfold sgn at 2; cbn [Nat.even]; lia|]. cbn [Nat.add]. rewrite !sgn_S, IH. lia. Qed.
Lemma sgn_sq k : sgn k * sgn k = 1.
Proof. unfold sgn. destruct (Nat.even k); reflexivity. Qed.
(** The sign that goes with leaving out j, then l. *)
Definition sg2 (j l : nat) : Z := (if Nat.ltb l j then 1 else -1) * (sgn j * sgn l).
Lemma sg2_skip j k : sg2 j (skip j k) = sgn j * sgn k.
Proof.
  unfold sg2, skip. destruct (Nat.ltb_spec k j) as [H|H].
  - destruct (Nat.ltb_spec k j); lia.
  - destruct (Nat.ltb_spec (S k) j); [lia|]. rewrite sgn_S. lia.
Qed.
Lemma sg2_swap j l : j <> l -> sg2 l j = - sg2 j l.
Proof. intro N. unfold sg2. destruct (Nat.ltb_spec l j), (Nat.ltb_spec j l); lia. Qed.
Definition skip2 (j l c : nat) : nat := skip (Nat.min j l) (skip (Nat.max j l - 1) c).
Lemma skip2_skip j k c : skip2 j (skip j k) c = skip j (skip k c).
Proof.
  unfold skip2. destruct (Nat.ltb_spec k j) as [H|H].
  - replace (skip j k) with k by (unfold skip; destruct (Nat.ltb_spec k j); lia). rewrite Nat.min_r, Nat.max_l by lia.
    unfold skip. repeat match goal with |- context [Nat.ltb ?a ?b] => destruct (Nat.ltb_spec a b) end; lia.
  - replace (skip j k) with (S k) by (unfold skip; destruct (Nat.ltb_spec k j); lia). rewrite Nat.min_l, Nat.max_r by lia. replace (S k - 1)%nat with k by lia. reflexivity.
Qed.
Lemma skip2_sym j l c : skip2 j l c = skip2 l j c.
Proof. unfold skip2. rewrite Nat.min_comm, Nat.max_comm. reflexivity. Qed.

Lemma det_S n M : det (S n) M = sum (S n) (fun j => sgn j * M O j * det n (minor M O j)).
Proof. reflexivity. Qed.
Lemma det_ext n : forall M N : mat, (forall r c, (r < n)%nat -> (c < n)%nat -> M r c = N r c) -> det n M = det n N.
Proof.
  induction n as [|n IH]; intros M N H; [reflexivity|]. rewrite !det_S. apply sum_ext. intros j Hj. rewrite (H O j) by lia. f_equal. apply IH.
  intros r c Hr Hc. unfold minor. apply H; apply skip_lt; auto.
Qed.

(** * Expansion along any row *)
Theorem det_row n : forall i M, (i < n)%nat -> det n M = sum n (fun j => sgn (i + j) * M i j * det (n - 1) (minor M i j)).
Proof.
  induction n as [|n IH]; intros i M Hi; [lia|]. replace (S n - 1)%nat with n by lia. destruct i as [|i].
  { rewrite det_S. apply sum_ext. intros. reflexivity. }
  destruct n as [|n]; [lia|].
  set (f := fun j l => sgn i * sg2 j l * M O j * M (S i) l * det n (fun r c => M (S (skip i r)) (skip2 j l c))).
  transitivity (sum (S (S n)) (fun j => sum (S n) (fun k => f j (skip j k)))).
  { rewrite det_S. apply sum_ext. intros j Hj.
    rewrite (IH i (minor M O j)) by lia. rewrite <- sum_mul. apply sum_ext. intros k Hk. unfold f. rewrite sg2_skip, sgn_add. replace (S n - 1)%nat with n by lia.
    unfold minor at 1. change (skip 0 i) with (S i). rewrite (det_ext n (minor (minor M O j) i k) (fun r c => M (S (skip i r)) (skip2 j (skip j k) c))); [lia|].
    intros r c Hr Hc. unfold minor. rewrite skip2_skip. reflexivity. }
  rewrite (sum_pairs (S n) f). apply sum_ext. intros l Hl. rewrite det_S.
  rewrite <- sum_mul. apply sum_ext. intros k Hk. unfold f.
  assert (S1 : sg2 (skip l k) l = - (sgn l * sgn k)) by (rewrite sg2_swap, sg2_skip by (apply not_eq_sym, skip_ne); reflexivity). rewrite S1.
  change (sgn (S i + l)) with (sgn (S (i + l))). rewrite sgn_S, sgn_add. unfold minor at 1. change (skip (S i) 0) with O.
  rewrite (det_ext n (minor (minor M (S i) l) 0 k) (fun r c => M (S (skip i r)) (skip2 (skip l k) l c))); [ring|].
  intros r c Hr Hc. unfold minor. rewrite skip2_sym, skip2_skip. f_equal. unfold skip. change (Nat.ltb r 0) with false. cbv iota.
  destruct (Nat.ltb_spec (S r) (S i)), (Nat.ltb_spec r i); lia.
Qed.

(** * Two equal rows *)
Theorem det_alt n M i l : (i < n)%nat -> (l < n)%nat -> i <> l -> (forall c, (c < n)%nat -> M i c = M l c) -> det n M = 0.
Proof.
  intros Hi Hl N E. destruct n as [|[|n]]; [lia|lia|]. destruct (skip_ex i l (S n) Hl (not_eq_sym N) Hi) as (l' & Hl' & EL).
  set (f := fun j c => sg2 j c * M i j * M l c * det n (fun r x => M (skip i (skip l' r)) (skip2 j c x))).
  assert (D : det (S (S n)) M = sgn i * sgn l' * sum (S (S n)) (fun j => sum (S n) (fun k => f j (skip j k)))).
  { rewrite (det_row _ i M Hi). replace (S (S n) - 1)%nat with (S n) by lia. rewrite <- sum_mul. apply sum_ext. intros j Hj. rewrite (det_row _ l' (minor M i j) Hl'). replace (S n - 1)%nat with n by lia.
    rewrite <- !sum_mul. apply sum_ext. intros k Hk. unfold f. rewrite sg2_skip, !sgn_add. unfold minor at 1. rewrite EL.
    rewrite (det_ext n (minor (minor M i j) l' k) (fun r x => M (skip i (skip l' r)) (skip2 j (skip j k) x))); [ring|].
    intros r c Hr Hc. unfold minor. rewrite skip2_skip. reflexivity. }
  assert (A : sum (S (S n)) (fun j => sum (S n) (fun k => f j (skip j k))) = -1 * sum (S (S n)) (fun j => sum (S n) (fun k => f j (skip j k)))).
  { rewrite sum_pairs at 1. rewrite <- sum_mul. apply sum_ext. intros j Hj. rewrite <- sum_mul. apply sum_ext. intros k Hk. unfold f.
    assert (S1 : sg2 (skip j k) j = - sg2 j (skip j k)) by (apply sg2_swap, not_eq_sym, skip_ne). rewrite S1.
    rewrite (E (skip j k)) by (apply skip_lt; auto). rewrite <- (E j) by auto.
    rewrite (det_ext n _ (fun r x => M (skip i (skip l' r)) (skip2 j (skip j k) x))); [ring|]. intros. rewrite skip2_sym. reflexivity. }
  rewrite D. replace (sum (S (S n)) (fun j => sum (S n) (fun k => f j (skip j k)))) with 0 by lia. ring.
Qed.

(** Row l against the cofactors of row i. *)
Theorem cofactors n M i l : (i < n)%nat -> (l < n)%nat ->
  sum n (fun j => sgn (i + j) * M l j * det (n - 1) (minor M i j)) = if Nat.eqb i l then det n M else 0.
Proof.
  intros Hi Hl. destruct (Nat.eqb_spec i l) as [<-|N]; [symmetry; apply det_row; auto|].
  set (N' := fun r c => if Nat.eqb r i then M l c else M r c).
  rewrite <- (det_alt n N' i l Hi Hl N).
  - rewrite (det_row n i N' Hi). apply sum_ext. intros j Hj. unfold N' at 1. rewrite Nat.eqb_refl. f_equal. apply det_ext. intros r c Hr Hc. unfold minor, N'.
    destruct (Nat.eqb_spec (skip i r) i) as [E|]; [elim (skip_ne _ _ E)|reflexivity].
  - intros c _. unfold N'. rewrite Nat.eqb_refl. destruct (Nat.eqb_spec l i); congruence.
Qed.

(** * Transpose *)
Definition tr (M : mat) : mat := fun i j => M j i.
(** Expansion along the first column. *)
Lemma det_col n : forall M, det (S n) M = sum (S n) (fun i => sgn i * M i O * det n (minor M i O)).
Proof.
  induction n as [|n IH]; intro M; [reflexivity|].
  assert (SH : forall m f, sum (S m) f = f O + sum m (fun k => f (S k))).
  { intros m f. induction m as [|m IHm]; [cbn; lia|]. cbn [sum] in *. rewrite IHm. lia. }
  transitivity (M O O * det (S n) (minor M O 0) + sum (S n) (fun j => sum (S n) (fun i => - (sgn i * sgn j) * M O (S j) * M (S i) O * det n (fun r c => M (S (skip i r)) (S (skip j c)))))).
  - rewrite det_S. rewrite SH. f_equal; [unfold sgn; cbn [Nat.even]; lia|]. apply sum_ext. intros j Hj.
    rewrite IH, <- sum_mul. apply sum_ext. intros i Hi.
    rewrite sgn_S. unfold minor at 1. change (skip 0 i) with (S i). change (skip (S j) 0) with O.
    rewrite (det_ext n _ (fun r c => M (S (skip i r)) (S (skip j c)))); [ring|]. intros r c Hr Hc. unfold minor. f_equal. unfold skip. change (Nat.ltb c 0) with false. cbv iota.
    destruct (Nat.ltb_spec (S c) (S j)), (Nat.ltb_spec c j); lia.
  - etransitivity; [|symmetry; apply SH]. cbv beta. change (sgn 0) with 1. rewrite Z.mul_1_l. f_equal. rewrite sum_swap. apply sum_ext. intros i Hi.
    rewrite det_S. rewrite <- sum_mul. apply sum_ext. intros j Hj. rewrite sgn_S. unfold minor at 1. change (skip (S i) 0) with O. change (skip 0 j) with (S j).
    rewrite (det_ext n (minor (minor M (S i) 0) 0 j) (fun r c => M (S (skip i r)) (S (skip j c)))); [ring|]. intros r c Hr Hc. unfold minor. f_equal. unfold skip. change (Nat.ltb r 0) with false. cbv iota.
    destruct (Nat.ltb_spec (S r) (S i)), (Nat.ltb_spec r i); lia.
Qed.
Theorem det_tr n : forall M, det n (tr M) = det n M.
Proof.
  induction n as [|n IH]; intro M; [reflexivity|]. rewrite det_col, det_S. apply sum_ext. intros j Hj. unfold tr at 1. f_equal. rewrite <- IH. apply det_ext. reflexivity.
Qed.

(** * Alternating multilinear functions *)
Definition setrow (M : mat) (r : nat) (x : nat -> Z) : mat := fun i c => if Nat.eqb i r then x c else M i c.
Record altml (n : nat) (F : mat -> Z) : Prop := {
  am_ext : forall M N : mat, (forall r c, (r < n)%nat -> (c < n)%nat -> M r c = N r c) -> F M = F N;
  am_lin : forall M r x y a b, (r < n)%nat -> F (setrow M r (fun c => a * x c + b * y c)) = a * F (setrow M r x) + b * F (setrow M r y);
  am_alt : forall (M : mat) r s, (r < n)%nat -> (s < n)%nat -> r <> s -> (forall c, (c < n)%nat -> M r c = M s c) -> F M = 0 }.

Lemma am_sum n F (H : altml n F) M r m x v : (r < n)%nat -> F (setrow M r (fun c => sum m (fun j => x j * v j c))) = sum m (fun j => x j * F (setrow M r (v j))).
Proof.
  intro Hr. induction m as [|m IH]; cbn [sum].
  - pose proof (am_lin n F H M r (fun _ => 0) (fun _ => 0) 0 0 Hr) as E. cbn in E. exact E.
  - rewrite <- IH. pose proof (am_lin n F H M r (fun c => sum m (fun j => x j * v j c)) (v m) 1 (x m) Hr) as E.
    rewrite Z.mul_1_l in E. rewrite <- E. apply (am_ext n F H). intros i c _ _. unfold setrow. destruct (Nat.eqb i r); lia.
Qed.
(** Adding a multiple of another row. *)
Lemma am_addrow n F (H : altml n F) M r s k : (r < n)%nat -> (s < n)%nat -> r <> s -> F (setrow M r (fun c => M r c + k * M s c)) = F M.
Proof.
  intros Hr Hs N. pose proof (am_lin n F H M r (M r) (M s) 1 k Hr) as E.
  rewrite (am_alt n F H (setrow M r (M s)) r s Hr Hs N) in E.
  2: { intros c _. unfold setrow. rewrite Nat.eqb_refl. destruct (Nat.eqb_spec s r); congruence. }
  replace (F M) with (F (setrow M r (M r))).
  - rewrite Z.mul_0_r, Z.mul_1_l, Z.add_0_r in E. rewrite <- E. apply (am_ext n F H). intros i c _ _. unfold setrow. destruct (Nat.eqb i r); lia.
  - apply (am_ext n F H). intros i c _ _. unfold setrow. destruct (Nat.eqb_spec i r); congruence.
Qed.
Lemma am_swap n F (H : altml n F) M r s : (r < n)%nat -> (s < n)%nat -> r <> s -> F (setrow (setrow M r (M s)) s (M r)) = - F M.
Proof.
  intros Hr Hs N. set (x := M r). set (y := M s).
  set (T := fun u v => F (setrow (setrow M r u) s v)).
  assert (L1 : forall u u' v, T (fun c => u c + u' c) v = T u v + T u' v).
  { intros u u' v. unfold T. pose proof (am_lin n F H (setrow M s v) r u u' 1 1 Hr) as E. rewrite !Z.mul_1_l in E.
    transitivity (F (setrow (setrow M s v) r (fun c => 1 * u c + 1 * u' c))).
    - apply (am_ext n F H). intros i c _ _. unfold setrow. destruct (Nat.eqb_spec i r), (Nat.eqb_spec i s); subst; try congruence; lia.
    - rewrite E. f_equal; apply (am_ext n F H); intros i c _ _; unfold setrow; destruct (Nat.eqb_spec i r), (Nat.eqb_spec i s); subst; congruence. }
  assert (L2 : forall u v v', T u (fun c => v c + v' c) = T u v + T u v').
  { intros u v v'. unfold T. pose proof (am_lin n F H (setrow M r u) s v v' 1 1 Hs) as E. rewrite !Z.mul_1_l in E. rewrite <- E.
    apply (am_ext n F H). intros i c _ _. unfold setrow. destruct (Nat.eqb_spec i s); lia. }
  assert (L3 : forall u, T u u = 0).
  { intro u. unfold T. apply (am_alt n F H _ r s Hr Hs N). intros c _. unfold setrow. rewrite !Nat.eqb_refl. destruct (Nat.eqb_spec r s); [congruence|reflexivity]. }
  pose proof (L3 (fun c => x c + y c)) as E. rewrite L1, !L2, !L3 in E.
  assert (E0 : T x y = F M). { unfold T. apply (am_ext n F H). intros i c _ _. unfold setrow, x, y. destruct (Nat.eqb_spec i s), (Nat.eqb_spec i r); congruence. }
  change (T y x = - F M). lia.
Qed.

(** The determinant is one, ... *)
Lemma setrow_minor M r x j : forall i c, minor (setrow M (S r) x) 0 j i c = setrow (minor M O j) r (fun c => x (skip j c)) i c.
Proof. intros i c. unfold minor, setrow. change (skip 0 i) with (S i). cbn [Nat.eqb]. reflexivity. Qed.
Lemma det_lin n : forall M r x y a b, (r < n)%nat -> det n (setrow M r (fun c => a * x c + b * y c)) = a * det n (setrow M r x) + b * det n (setrow M r y).
Proof.
  induction n as [|n IH]; intros M r x y a b Hr; [lia|]. rewrite !det_S. rewrite <- !sum_mul, <- sum_add. apply sum_ext. intros j Hj. destruct r as [|r].
  - unfold setrow at 1 3 5. cbn [Nat.eqb].
    assert (Q : forall z, det n (minor (setrow M 0 z) 0 j) = det n (minor M O j)) by (intro z; apply det_ext; reflexivity). rewrite !Q. lia.
  - unfold setrow at 1 3 5. cbn [Nat.eqb]. rewrite !(det_ext n (minor (setrow M (S r) _) 0 j) _ (fun i c _ _ => setrow_minor M r _ j i c)). rewrite IH by lia. lia.
Qed.
Lemma altml_det n : altml n (det n).
Proof. constructor; [apply det_ext|apply det_lin|]. intros M r s Hr Hs N E. exact (det_alt n M r s Hr Hs N E). Qed.

(** ... and the only one up to a factor. *)
Definition unskip (j c : nat) : nat := if Nat.ltb c j then c else (c - 1)%nat.
Lemma unskip_skip j c : unskip j (skip j c) = c.
Proof. unfold unskip, skip. destruct (Nat.ltb_spec c j); [destruct (Nat.ltb_spec c j); lia|]. destruct (Nat.ltb_spec (S c) j); lia. Qed.
Lemma skip_unskip j c : c <> j -> skip j (unskip j c) = c.
Proof. intro N. unfold unskip. destruct (Nat.ltb_spec c j); unfold skip; [destruct (Nat.ltb_spec c j)|destruct (Nat.ltb_spec (c - 1) j)]; lia. Qed.
Lemma unskip_lt j c n : (c < S n)%nat -> c <> j -> (j < S n)%nat -> (unskip j c < n)%nat.
Proof. intros. unfold unskip. destruct (Nat.ltb_spec c j); lia. Qed.
Definition brow (j : nat) (x : nat -> Z) : nat -> Z := fun c => if Nat.eqb c j then 0 else x (unskip j c).
Definition border (j : nat) (M : mat) : mat := fun i c => match i with O => idm j c | S i => brow j (M i) c end.

Lemma border_altml n F j : altml (S n) F -> (j < S n)%nat -> altml n (fun M => F (border j M)).
Proof.
  intros H Hj.
  assert (SB : forall M r x i c, border j (setrow M r x) i c = setrow (border j M) (S r) (brow j x) i c).
  { intros M r x i c. unfold border, setrow. destruct i as [|i]; cbn [Nat.eqb]; [reflexivity|]. unfold brow. destruct (Nat.eqb i r); reflexivity. }
  constructor.
  - intros M N E. apply (am_ext _ F H). intros r c Hr Hc. unfold border, brow. destruct r; [reflexivity|]. destruct (Nat.eqb_spec c j); [reflexivity|]. apply E; [lia|]. apply unskip_lt; auto.
  - intros M r x y a b Hr. rewrite !(am_ext _ F H (border j (setrow M r _)) _ (fun i c _ _ => SB M r _ i c)). rewrite <- (am_lin _ F H) by lia.
    apply (am_ext _ F H). intros i c _ _. unfold setrow, brow. destruct (Nat.eqb i (S r)); [|reflexivity]. destruct (Nat.eqb c j); lia.
  - intros M r s Hr Hs N E. apply (am_alt _ F H _ (S r) (S s)); [lia|lia|lia|]. intros c Hc. unfold border, brow. destruct (Nat.eqb_spec c j); [reflexivity|]. apply E. apply unskip_lt; auto.
Qed.
Lemma border_id n F : altml (S n) F -> forall j, (j < S n)%nat -> F (border j idm) = sgn j * F idm.
Proof.
  intros H.
  assert (BR : forall j i c, border j idm i c = idm (match i with O => j | S i => skip j i end) c).
  { intros j [|i] c; [reflexivity|]. unfold border, brow, idm. destruct (Nat.eqb_spec c j) as [->|N].
    - destruct (Nat.eqb_spec (skip j i) j) as [E|]; [elim (skip_ne _ _ E)|reflexivity].
    - destruct (Nat.eqb_spec i (unskip j c)) as [->|N']; [rewrite skip_unskip, Nat.eqb_refl by auto; reflexivity|].
      destruct (Nat.eqb_spec (skip j i) c) as [E|]; [|reflexivity]. elim N'. rewrite <- E, unskip_skip. reflexivity. }
  induction j as [|j IH]; intro Hj.
  - rewrite Z.mul_1_l. apply (am_ext _ F H). intros i c _ _. rewrite BR. destruct i; reflexivity.
  - rewrite sgn_S, Z.mul_opp_l, <- IH by lia. rewrite <- (am_swap _ F H (border j idm) O (S j)) by lia. apply (am_ext _ F H). intros i c _ _.
    unfold setrow. rewrite !BR. destruct i as [|i]; cbn [Nat.eqb].
    + f_equal. unfold skip. destruct (Nat.ltb_spec j j); lia.
    + destruct (Nat.eqb_spec i j) as [->|N]; [|f_equal]; unfold skip.
      * destruct (Nat.ltb_spec j (S j)); [reflexivity|lia].
      * destruct (Nat.ltb_spec i (S j)), (Nat.ltb_spec i j); lia.
Qed.
Lemma border_clear n F : altml (S n) F -> forall M j, (j < S n)%nat -> F (setrow M 0 (idm j)) = F (border j (minor M O j)).
Proof.
  intros H M j Hj. set (C := fun m : nat => (fun i c => match i with O => idm j c | S i => if (Nat.ltb i m && Nat.eqb c j)%bool then 0 else M (S i) c end) : mat).
  assert (G : forall m, (m <= n)%nat -> F (setrow M 0 (idm j)) = F (C m)).
  { induction m as [|m IH]; intro Hm.
    - apply (am_ext _ F H). intros [|i] c _ _; reflexivity.
    - rewrite IH by lia. rewrite <- (am_addrow _ F H (C m) (S m) O (- M (S m) j)) by lia. apply (am_ext _ F H). intros i c _ _. unfold setrow, C. destruct i as [|i]; [reflexivity|]. cbn [Nat.eqb].
      destruct (Nat.eqb_spec i m) as [->|N].
      + replace (Nat.ltb m m) with false by (symmetry; apply Nat.ltb_irrefl). replace (Nat.ltb m (S m)) with true by (symmetry; apply Nat.ltb_lt; lia). cbn [andb]. unfold idm.
        rewrite (Nat.eqb_sym j c). destruct (Nat.eqb_spec c j) as [->|]; lia.
      + replace (Nat.ltb i (S m)) with (Nat.ltb i m); [reflexivity|]. destruct (Nat.ltb_spec i m), (Nat.ltb_spec i (S m)); lia. }
  rewrite (G n) by lia. apply (am_ext _ F H). intros [|i] c Hi Hc; [reflexivity|]. unfold C, border, brow, minor. replace (Nat.ltb i n) with true by (symmetry; apply Nat.ltb_lt; lia). cbn [andb].
  destruct (Nat.eqb_spec c j); [reflexivity|]. change (skip 0 i) with (S i). rewrite skip_unskip by auto. reflexivity.
Qed.
Theorem altml_unique n : forall F, altml n F -> forall M, F M = det n M * F idm.
Proof.
  induction n as [|n IH]; intros F H M.
  - cbn [det]. rewrite Z.mul_1_l. apply (am_ext _ F H). intros; lia.
  - transitivity (F (setrow M 0 (fun c => sum (S n) (fun j => M O j * idm j c)))).
    { apply (am_ext _ F H). intros [|i] c _ Hc; unfold setrow; cbn [Nat.eqb]; [|reflexivity]. rewrite (sum_one _ c); [unfold idm; rewrite Nat.eqb_refl; lia|auto|].
      intros k _ N. unfold idm. destruct (Nat.eqb_spec k c); [congruence|lia]. }
    rewrite (am_sum _ F H) by lia. rewrite det_S. rewrite <- sum_mul_r. apply sum_ext. intros j Hj. rewrite (border_clear n F H M j Hj).
    rewrite (IH _ (border_altml n F j H Hj)). rewrite (border_id n F H j Hj). ring.
Qed.

(** * Product *)
Theorem det_mul n A B : det n (mulm n A B) = det n A * det n B.
Proof.
  assert (SM : forall M r x i j, mulm n (setrow M r x) B i j = setrow (mulm n M B) r (fun j => sum n (fun k => x k * B k j)) i j).
  { intros M r x i j. unfold mulm, setrow. destruct (Nat.eqb i r); reflexivity. }
  assert (H : altml n (fun A => det n (mulm n A B))).
  { constructor.
    - intros M N E. apply det_ext. intros r c Hr Hc. unfold mulm. apply sum_ext. intros k Hk. rewrite E by auto. reflexivity.
    - intros M r x y a b Hr. rewrite !(det_ext n (mulm n (setrow M r _) B) _ (fun i j _ _ => SM M r _ i j)). rewrite <- det_lin by auto. apply det_ext. intros i c _ _. unfold setrow.
      destruct (Nat.eqb i r); [|reflexivity]. rewrite <- !sum_mul, <- sum_add. apply sum_ext. intros. ring.
    - intros M r s Hr Hs N E. apply (det_alt n _ r s Hr Hs N). intros c Hc. unfold mulm. apply sum_ext. intros k Hk. rewrite E by auto. reflexivity. }
  rewrite (altml_unique n _ H A). f_equal. apply det_ext. intros r c Hr Hc. unfold mulm. rewrite (sum_one n r); auto.
  - unfold idm. rewrite Nat.eqb_refl. lia.
  - intros k _ N. unfold idm. destruct (Nat.eqb_spec r k); [congruence|lia].
Qed.
Theorem det_id n : det n idm = 1.
Proof.
  induction n as [|n IH]; [reflexivity|]. rewrite det_S. rewrite (sum_one (S n) O); [|lia|intros k _ N; unfold idm; destruct k; [congruence|cbn; lia]].
  rewrite (det_ext n _ idm), IH; [reflexivity|]. reflexivity.
Qed.
