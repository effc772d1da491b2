(** Lemmas on lists: replacement, exclusive or, consecutive blocks. *)
From Verif Require Import Base Bits.

Lemma upd_length {A} (l : list A) : forall i v, length (upd l i v) = length l.
Proof. induction l; intros [|i] v; simpl; auto. Qed.
Lemma nth_upd {A} (d : A) (l : list A) : forall i j v, (i < length l)%nat ->
  nth j (upd l i v) d = if Nat.eqb j i then v else nth j l d.
Proof.
  induction l; intros [|i] [|j] v H; simpl in *; try lia; auto.
  apply IHl. lia.
Qed.
Lemma nth_upd_same {A} (d : A) (l : list A) i v : (i < length l)%nat -> nth i (upd l i v) d = v.
Proof. intros H. rewrite nth_upd by auto. now rewrite Nat.eqb_refl. Qed.
Lemma nth_upd_other {A} (d : A) (l : list A) : forall i j v, i <> j -> nth j (upd l i v) d = nth j l d.
Proof. induction l; intros [|i] [|j] v H; simpl in *; try congruence; auto. Qed.
Lemma upd_out {A} (l : list A) : forall i v, (length l <= i)%nat -> upd l i v = l.
Proof. induction l; intros [|i] v H; simpl in *; try lia; auto. f_equal. apply IHl. lia. Qed.
Lemma upd_app {A} (l : list A) x r v : upd (l ++ x :: r) (length l) v = l ++ v :: r.
Proof. induction l; simpl; congruence. Qed.
Lemma Forall_upd {A} (P : A -> Prop) (l : list A) : forall i v, Forall P l -> P v -> Forall P (upd l i v).
Proof. induction l; intros [|i] v H Hv; simpl; auto; inversion H; subst; constructor; auto. Qed.
Lemma Forall_nth_d {A} (P : A -> Prop) (l : list A) d : Forall P l -> P d -> forall i, P (nth i l d).
Proof. intros H Hd i. revert l H. induction i; intros [|x l] H; simpl; auto; inversion H; auto. Qed.
Lemma list_eq {A} (d : A) (a b : list A) : length a = length b -> (forall i, (i < length a)%nat -> nth i a d = nth i b d) -> a = b.
Proof. intros L H. apply (nth_ext a b d d L H). Qed.

(** Exclusive or *)
Lemma xorl_length a : forall b, length (xorl a b) = Nat.min (length a) (length b).
Proof. induction a; intros [|y b]; simpl; auto. Qed.
Lemma xorl_length_eq a b : length a = length b -> length (xorl a b) = length a.
Proof. intros H. rewrite xorl_length. lia. Qed.
Lemma xorl_nil_r a : xorl a [] = [].
Proof. destruct a; auto. Qed.
Lemma xorl_comm a : forall b, xorl a b = xorl b a.
Proof. induction a; intros [|y b]; simpl; auto. rewrite Z.lxor_comm. f_equal. auto. Qed.
Lemma xorl_assoc a : forall b c, xorl (xorl a b) c = xorl a (xorl b c).
Proof. induction a; intros [|y b] [|z c]; simpl; auto. rewrite Z.lxor_assoc. f_equal. auto. Qed.
Lemma xorl_invol a : forall k, (length a <= length k)%nat -> xorl (xorl a k) k = a.
Proof.
  induction a; intros [|y k] H; simpl in *; auto; try lia.
  rewrite Z.lxor_assoc, Z.lxor_nilpotent, Z.lxor_0_r. f_equal. apply IHa. lia.
Qed.
Lemma xorl_app a : forall b c d, length a = length c -> xorl (a ++ b) (c ++ d) = xorl a c ++ xorl b d.
Proof. induction a; intros b [|y c] d H; simpl in *; auto; try lia. f_equal. apply IHa. lia. Qed.
Lemma xorl_firstn a : forall b n, xorl (firstn n a) (firstn n b) = firstn n (xorl a b).
Proof. induction a; intros [|y b] [|n]; simpl; auto. f_equal. auto. Qed.
Lemma xorl_firstn_r a : forall k, xorl a (firstn (length a) k) = xorl a k.
Proof. induction a; intros [|y k]; simpl; auto. f_equal. auto. Qed.
Lemma byte_lxor x y : byte x -> byte y -> byte (Z.lxor x y).
Proof. unfold byte. intros. apply (lxor_bound 8); lia. Qed.
Lemma xorl_bytes a : forall b, bytes a -> bytes b -> bytes (xorl a b).
Proof.
  induction a; intros [|y b] Ha Hb; simpl; try constructor; inversion Ha; inversion Hb; subst.
  - apply byte_lxor; auto.
  - apply IHa; auto.
Qed.
Lemma xorl_zeros a : xorl a (repeat 0 (length a)) = a.
Proof. induction a; simpl; auto. rewrite Z.lxor_0_r. f_equal. auto. Qed.
Lemma nth_xorl a : forall b i, (i < length a)%nat -> (i < length b)%nat -> nth i (xorl a b) 0 = Z.lxor (nth i a 0) (nth i b 0).
Proof. induction a; intros [|y b] [|i] H1 H2; simpl in *; try lia; auto. apply IHa; lia. Qed.

Lemma bytes_firstn n l : bytes l -> bytes (firstn n l).
Proof. intros H. revert n. induction H; intros [|n]; simpl; constructor; auto; try apply IHForall. Qed.
Lemma bytes_skipn n l : bytes l -> bytes (skipn n l).
Proof. intros H. revert n. induction H; intros [|n]; simpl; try constructor; auto; try apply IHForall. Qed.
Lemma bytes_concat ls : Forall bytes ls -> bytes (concat ls).
Proof. induction 1; simpl; [constructor|]. apply Forall_app; auto. Qed.
Lemma skipn_skipn {A} (n m : nat) (l : list A) : skipn n (skipn m l) = skipn (m + n) l.
Proof. revert l. induction m; intros [|x l]; simpl; auto. now rewrite skipn_nil. Qed.
Lemma repeat_S_snoc {A} (x : A) n : repeat x (S n) = repeat x n ++ [x].
Proof. induction n; simpl in *; congruence. Qed.

(** Blocks *)
Lemma chunks_aux_fuel n (Hn : (0 < n)%nat) : forall f g l, (length l <= f)%nat -> (length l <= g)%nat -> chunks_aux f n l = chunks_aux g n l.
Proof.
  induction f; intros g l Hf Hg.
  - destruct l; simpl in *; try lia. destruct g; auto.
  - destruct g; [destruct l; simpl in *; try lia; auto|].
    destruct l as [|x l]; [reflexivity|]. cbn [chunks_aux]. f_equal.
    destruct n; try lia. apply IHf; rewrite skipn_length; simpl in *; lia.
Qed.
Lemma chunks_nil n : chunks n [] = [].
Proof. reflexivity. Qed.
Lemma chunks_app n a r : (0 < n)%nat -> length a = n -> chunks n (a ++ r) = a :: chunks n r.
Proof.
  intros Hn Ha. unfold chunks. destruct a as [|x a]; [simpl in Ha; lia|].
  cbn [length app]. cbn [chunks_aux]. change (x :: a ++ r) with ((x :: a) ++ r).
  rewrite firstn_app, skipn_app, Ha, Nat.sub_diag. rewrite firstn_all2, skipn_all2 by lia.
  simpl. rewrite app_nil_r. f_equal. apply chunks_aux_fuel; auto. rewrite app_length. lia.
Qed.
Lemma chunks_short n l : (0 < n)%nat -> (0 < length l <= n)%nat -> chunks n l = [l].
Proof.
  intros Hn Hl. destruct l as [|x l]; [simpl in Hl; lia|]. unfold chunks. cbn [length chunks_aux].
  rewrite firstn_all2, skipn_all2 by (simpl in *; lia). destruct (length l); auto.
Qed.
(** Induction by whole blocks with a short rest. *)
Lemma block_ind (n : nat) (P : list Z -> Prop) : (0 < n)%nat ->
  (forall l, (length l < n)%nat -> P l) ->
  (forall a r, length a = n -> P r -> P (a ++ r)) -> forall l, P l.
Proof.
  intros Hn H0 H1. assert (G : forall k l, (length l <= k)%nat -> P l).
  { induction k; intros l Hl. { apply H0. lia. }
    destruct (Nat.lt_ge_cases (length l) n) as [L|L]; [auto|].
    rewrite <- (firstn_skipn n l). apply H1. { rewrite firstn_length. lia. }
    apply IHk. rewrite skipn_length. lia. }
  intros l. apply (G (length l)). lia.
Qed.
Lemma firstn_exact {A} (a r : list A) n : length a = n -> firstn n (a ++ r) = a.
Proof. intros <-. rewrite firstn_app, Nat.sub_diag, firstn_all2 by lia. apply app_nil_r. Qed.
Lemma skipn_exact {A} (a r : list A) n : length a = n -> skipn n (a ++ r) = r.
Proof. intros <-. rewrite skipn_app, Nat.sub_diag, skipn_all2 by lia. reflexivity. Qed.
Lemma last_default {A} (l : list A) x y : l <> [] -> last l x = last l y.
Proof. induction l; [congruence|]. intros _. destruct l; auto. cbn [last] in *. apply IHl. congruence. Qed.
Lemma last_app2 {A} (a b : list A) d : last (a ++ b) d = last b (last a d).
Proof.
  induction a; [reflexivity|]. destruct a0.
  - cbn [app]. destruct b; auto. change (last (a0 :: b) d = last (a0 :: b) a). apply last_default. discriminate.
  - cbn [app last] in *. exact IHa.
Qed.
Lemma last_Forall {A} (P : A -> Prop) l d : Forall P l -> P d -> P (last l d).
Proof. induction 1; intros Hd; auto. cbn [last]. destruct l; auto. Qed.
