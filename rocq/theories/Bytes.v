(** Lemmas on integers as byte strings. *)
From Verif Require Import Base Bits BytesSpec.

Lemma pow256_pos n : 0 < 256 ^ Z.of_nat n.
Proof. apply Z.pow_pos_nonneg; lia. Qed.
Lemma pow256_S n : 256 ^ Z.of_nat (S n) = 256 * 256 ^ Z.of_nat n.
Proof. rewrite Nat2Z.inj_succ, Z.pow_succ_r by lia. reflexivity. Qed.

Lemma be_val_acc l : forall v, fold_left (fun v b => 256 * v + b) l v = v * 256 ^ Z.of_nat (length l) + be_val l.
Proof.
  unfold be_val. induction l as [|b l IH]; intro v; cbn [fold_left length].
  - rewrite Z.pow_0_r. lia.
  - rewrite IH, (IH (256 * 0 + b)), pow256_S. ring.
Qed.

Lemma be_val_app a b : be_val (a ++ b) = be_val a * 256 ^ Z.of_nat (length b) + be_val b.
Proof. unfold be_val. rewrite fold_left_app, be_val_acc. reflexivity. Qed.
Lemma be_val_snoc a b : be_val (a ++ [b]) = 256 * be_val a + b.
Proof. unfold be_val. rewrite fold_left_app. reflexivity. Qed.
Lemma be_val_cons b l : be_val (b :: l) = b * 256 ^ Z.of_nat (length l) + be_val l.
Proof. unfold be_val. cbn [fold_left]. rewrite be_val_acc. unfold be_val. ring_simplify. reflexivity. Qed.

Lemma be_val_le l : be_val l = le_val (rev l).
Proof.
  induction l as [|b l IH] using rev_ind; [reflexivity|]. rewrite be_val_snoc, rev_app_distr, IH. cbn [rev app le_val]. ring.
Qed.

Lemma le_val_bound l : bytes l -> 0 <= le_val l < 256 ^ Z.of_nat (length l).
Proof.
  induction 1 as [|b l Hb _ IH]; cbn [le_val length]; [rewrite Z.pow_0_r; lia|]. rewrite pow256_S. unfold byte in Hb. lia.
Qed.
Lemma bytes_rev l : bytes l -> bytes (rev l).
Proof. unfold bytes. rewrite !Forall_forall. intros H x Hx. apply H. apply in_rev. auto. Qed.
Lemma be_val_bound l : bytes l -> 0 <= be_val l < 256 ^ Z.of_nat (length l).
Proof. intro H. rewrite be_val_le, <- rev_length. apply le_val_bound, bytes_rev; auto. Qed.

Lemma le_bytes_length n : forall v, length (le_bytes n v) = n.
Proof. induction n; intro v; cbn; auto. Qed.
Lemma be_bytes_length n v : length (be_bytes n v) = n.
Proof. unfold be_bytes. rewrite rev_length. apply le_bytes_length. Qed.
Lemma le_bytes_bytes n : forall v, bytes (le_bytes n v).
Proof. induction n; intro v; cbn; constructor; auto. apply Z.mod_pos_bound. lia. apply IHn. Qed.
Lemma be_bytes_bytes n v : bytes (be_bytes n v).
Proof. apply bytes_rev, le_bytes_bytes. Qed.

Lemma le_val_bytes n : forall v, le_val (le_bytes n v) = v mod 256 ^ Z.of_nat n.
Proof.
  induction n as [|n IH]; intro v; cbn [le_bytes le_val]; [rewrite Z.pow_0_r, Z.mod_1_r; reflexivity|].
  rewrite IH, pow256_S, Z.rem_mul_r by (pose proof (pow256_pos n); lia). reflexivity.
Qed.
Lemma be_val_bytes n v : be_val (be_bytes n v) = v mod 256 ^ Z.of_nat n.
Proof. rewrite be_val_le. unfold be_bytes. rewrite rev_involutive. apply le_val_bytes. Qed.

Lemma le_bytes_val l : bytes l -> le_bytes (length l) (le_val l) = l.
Proof.
  induction 1 as [|b l Hb _ IH]; cbn [le_val length le_bytes]; auto. unfold byte in Hb.
  replace ((b + 256 * le_val l) mod 256) with b. 2: { rewrite Z.mul_comm, Z_mod_plus_full, Z.mod_small; lia. }
  replace ((b + 256 * le_val l) / 256) with (le_val l). 2: { rewrite Z.mul_comm, Z_div_plus_full, Z.div_small; lia. }
  rewrite IH. reflexivity.
Qed.
Lemma be_bytes_val l : bytes l -> be_bytes (length l) (be_val l) = l.
Proof.
  intro H. unfold be_bytes. rewrite be_val_le, <- rev_length, le_bytes_val by (apply bytes_rev; auto). apply rev_involutive.
Qed.

Lemma be_val_inj a b : bytes a -> bytes b -> length a = length b -> be_val a = be_val b -> a = b.
Proof. intros Ha Hb L E. rewrite <- (be_bytes_val a Ha), <- (be_bytes_val b Hb), L, E. reflexivity. Qed.

Lemma le_bytes_nth n : forall v i, (i < n)%nat -> nth i (le_bytes n v) 0 = v / 256 ^ Z.of_nat i mod 256.
Proof.
  induction n as [|n IH]; intros v i H; [lia|]. cbn [le_bytes]. destruct i as [|i]; cbn [nth].
  - rewrite Z.pow_0_r, Z.div_1_r. reflexivity.
  - rewrite IH by lia. rewrite pow256_S, Z.div_div by (pose proof (pow256_pos i); lia). reflexivity.
Qed.

Lemma bytes_app a b : bytes (a ++ b) <-> bytes a /\ bytes b.
Proof. apply Forall_app. Qed.
Lemma be_val_repeat0 n l : be_val (repeat 0 n ++ l) = be_val l.
Proof.
  rewrite be_val_app. assert (E : be_val (repeat 0 n) = 0); [|rewrite E; lia].
  induction n as [|n IH]; [reflexivity|]. cbn [repeat]. rewrite be_val_cons, IH. lia.
Qed.
Lemma bytes_repeat0 n : bytes (repeat 0 n).
Proof. apply Forall_forall. intros x Hx. apply repeat_spec in Hx. subst. unfold byte. lia. Qed.
