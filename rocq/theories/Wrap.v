(** Proofs about AES key wrap. *)
From Verif Require Import Base Lists BytesSpec Bytes Modes AesModel AesSpec Aes4 Aes5 Rsa2 WrapModel WrapSpec.

(** * Steps are inverse to each other *)
Definition blk8 (b : list Z) : Prop := length b = 8%nat /\ bytes b.
Definition wf (n : nat) (st : list Z * list (list Z)) : Prop := blk8 (fst st) /\ Forall blk8 (snd st) /\ length (snd st) = n.
Lemma split16 b : length b = 16%nat -> bytes b -> blk8 (firstn 8 b) /\ blk8 (skipn 8 b).
Proof.
  intros L H. unfold blk8. rewrite firstn_length, skipn_length, L. split; split; try reflexivity.
  - apply bytes_firstn; auto.
  - apply bytes_skipn; auto.
Qed.
Lemma join16 a b : blk8 a -> blk8 b -> length (a ++ b) = 16%nat /\ bytes (a ++ b).
Proof. intros [La Ha] [Lb Hb]. rewrite app_length, La, Lb. split; [reflexivity|apply Forall_app; auto]. Qed.
Lemma blk8_xor a t : blk8 a -> blk8 (xorl a (be_bytes 8 t)).
Proof.
  intros [La Ha]. split.
  - rewrite xorl_length_eq; rewrite ?be_bytes_length; auto.
  - apply xorl_bytes; auto. apply be_bytes_bytes.
Qed.
Lemma blk8_nth (R : list (list Z)) i : Forall blk8 R -> (i < length R)%nat -> blk8 (nth i R []).
Proof. intros F H. apply (proj1 (Forall_forall _ _) F). apply nth_In; auto. Qed.
Lemma upd_upd {A} (l : list A) : forall i x y, upd (upd l i x) i y = upd l i y.
Proof. induction l as [|a l IH]; intros [|i] x y; cbn; auto. rewrite IH. reflexivity. Qed.
Lemma upd_nth {A} (l : list A) d : forall i, (i < length l)%nat -> upd l i (nth i l d) = l.
Proof. induction l as [|a l IH]; intros [|i] H; cbn in *; try lia; auto. rewrite IH by lia. reflexivity. Qed.
Lemma app_split {A} (b : list A) n : firstn n b ++ skipn n b = b.
Proof. apply firstn_skipn. Qed.

Section Steps.
Variables (tv : Z -> Z) (E D : list Z -> list Z) (n : nat).
Hypothesis EL : forall b, length b = 16%nat -> length (E b) = 16%nat.
Hypothesis EB : forall b, length b = 16%nat -> bytes b -> bytes (E b).
Hypothesis DL : forall b, length b = 16%nat -> length (D b) = 16%nat.
Hypothesis DB : forall b, length b = 16%nat -> bytes b -> bytes (D b).
Hypothesis DE : forall b, length b = 16%nat -> bytes b -> D (E b) = b.
Hypothesis ED : forall b, length b = 16%nat -> bytes b -> E (D b) = b.
Definition okp (p : nat * nat) : Prop := (1 <= snd p <= n)%nat.
Lemma step_wf st p : wf n st -> okp p -> wf n (step tv E n st p).
Proof.
  intros (Ha & HR & L) Hp. unfold okp in Hp. destruct (join16 _ _ Ha (blk8_nth (snd st) (snd p - 1) HR ltac:(lia))) as [J1 J2].
  destruct (split16 _ (EL _ J1) (EB _ J1 J2)) as [S1 S2]. unfold wf, step. cbn [fst snd]. split; [apply blk8_xor; auto|]. split; [apply Forall_upd; auto|rewrite upd_length; auto].
Qed.
Lemma unstep_wf st p : wf n st -> okp p -> wf n (unstep tv D n st p).
Proof.
  intros (Ha & HR & L) Hp. unfold okp in Hp. destruct (join16 _ _ (blk8_xor _ (tv (tstep n p)) Ha) (blk8_nth (snd st) (snd p - 1) HR ltac:(lia))) as [J1 J2].
  destruct (split16 _ (DL _ J1) (DB _ J1 J2)) as [S1 S2]. unfold wf, unstep. cbn [fst snd]. split; auto. split; [apply Forall_upd; auto|rewrite upd_length; auto].
Qed.
Lemma unstep_step st p : wf n st -> okp p -> unstep tv D n (step tv E n st p) p = st.
Proof.
  intros (Ha & HR & L) Hp. unfold okp in Hp. destruct st as [a R]. cbn [fst snd] in *.
  pose proof (blk8_nth R (snd p - 1) HR ltac:(lia)) as Hb. destruct (join16 _ _ Ha Hb) as [J1 J2].
  destruct (split16 _ (EL _ J1) (EB _ J1 J2)) as [[S1 _] _]. unfold unstep, step. cbn [fst snd].
  rewrite xorl_invol by (rewrite be_bytes_length; lia). rewrite nth_upd_same by lia. rewrite app_split, DE by auto.
  rewrite upd_upd. rewrite firstn_exact by apply Ha. rewrite skipn_exact by apply Ha. rewrite upd_nth by lia. reflexivity.
Qed.
Lemma step_unstep st p : wf n st -> okp p -> step tv E n (unstep tv D n st p) p = st.
Proof.
  intros (Ha & HR & L) Hp. unfold okp in Hp. destruct st as [a R]. cbn [fst snd] in *.
  pose proof (blk8_nth R (snd p - 1) HR ltac:(lia)) as Hb. pose proof (blk8_xor _ (tv (tstep n p)) Ha) as Hx. destruct (join16 _ _ Hx Hb) as [J1 J2].
  unfold unstep, step. cbn [fst snd]. rewrite nth_upd_same by lia. rewrite app_split, ED by auto. rewrite firstn_exact by apply Hx. rewrite skipn_exact by apply Hx.
  rewrite xorl_invol by (rewrite be_bytes_length; destruct Ha; lia). rewrite upd_upd, upd_nth by lia. reflexivity.
Qed.
Lemma fold_wf ps : forall st, Forall okp ps -> wf n st -> wf n (fold_left (step tv E n) ps st).
Proof. induction ps as [|p ps IH]; intros st H W; [auto|]. inversion H; subst. cbn [fold_left]. apply IH; auto using step_wf. Qed.
Lemma unfold_wf ps : forall st, Forall okp ps -> wf n st -> wf n (fold_left (unstep tv D n) ps st).
Proof. induction ps as [|p ps IH]; intros st H W; [auto|]. inversion H; subst. cbn [fold_left]. apply IH; auto using unstep_wf. Qed.
Lemma undo ps : forall st, Forall okp ps -> wf n st -> fold_left (unstep tv D n) (rev ps) (fold_left (step tv E n) ps st) = st.
Proof.
  induction ps as [|p ps IH]; intros st H W; [reflexivity|]. inversion H; subst. cbn [rev fold_left]. rewrite fold_left_app. rewrite IH by auto using step_wf.
  cbn [fold_left]. apply unstep_step; auto.
Qed.
Lemma redo ps : forall st, Forall okp ps -> wf n st -> fold_left (step tv E n) ps (fold_left (unstep tv D n) (rev ps) st) = st.
Proof.
  induction ps as [|p ps IH]; intros st H W; [reflexivity|]. inversion H; subst. cbn [rev]. rewrite fold_left_app. cbn [fold_left].
  rewrite step_unstep; [apply IH; auto|apply unfold_wf; auto using Forall_rev|auto].
Qed.
End Steps.
Lemma steps_ok n : Forall (okp n) (steps n).
Proof. apply Forall_forall. intros [j i] H. unfold steps in H. apply in_prod_iff in H as [_ H]. apply in_seq in H. unfold okp. cbn. lia. Qed.

(** * Blocks of 8 *)
Lemma chunks8 l : whole 8 l -> bytes l -> Forall blk8 (chunks 8 l) /\ length (chunks 8 l) = (length l / 8)%nat.
Proof.
  intros W. revert l W. apply (whole_ind 8 (fun l => bytes l -> Forall blk8 (chunks 8 l) /\ length (chunks 8 l) = (length l / 8)%nat)); [lia|intros _; split; [constructor|reflexivity]|].
  intros a r La Wr IH Hb. apply Forall_app in Hb as [Ha Hr]. destruct (IH Hr) as [F L]. rewrite chunks_app by (auto; lia). split; [constructor; [split; auto|auto]|].
  cbn [length]. rewrite L, app_length, La. replace (8 + length r)%nat with (length r + 1 * 8)%nat by lia. rewrite Nat.div_add by lia. lia.
Qed.
Lemma concat8 (R : list (list Z)) : Forall blk8 R -> chunks 8 (concat R) = R /\ length (concat R) = (8 * length R)%nat /\ bytes (concat R).
Proof.
  induction 1 as [|b R [Lb Hb] F (E & L & B)]; [repeat split; constructor|]. cbn [concat length]. rewrite chunks_app by (auto; lia). rewrite E, app_length, L, Lb.
  split; [reflexivity|]. split; [lia|]. apply Forall_app; auto.
Qed.
Lemma concat_split (R : list (list Z)) i : Forall blk8 R -> (i < length R)%nat -> exists R1 R2, R = R1 ++ nth i R [] :: R2 /\ length R1 = i /\ length (concat R1) = (8 * i)%nat.
Proof.
  intros F H. destruct (nth_split R [] H) as (R1 & R2 & E & L). exists R1, R2. split; auto. split; auto.
  rewrite E in F. apply Forall_app in F as [F1 _]. rewrite (proj1 (proj2 (concat8 R1 F1))). lia.
Qed.
Lemma get_blk R tl j : Forall blk8 R -> (1 <= j <= length R)%nat -> blk (concat R ++ tl) j = nth (j - 1) R [].
Proof.
  intros F H. destruct (concat_split R (j - 1) F ltac:(lia)) as (R1 & R2 & E & L & LC). pose proof (blk8_nth R (j - 1) F ltac:(lia)) as [Lb _]. set (b := nth (j - 1) R []) in *.
  unfold blk. rewrite E, concat_app. cbn [concat]. rewrite <- !app_assoc. rewrite skipn_exact by auto. apply firstn_exact. auto.
Qed.
Lemma put_blk R tl j v : Forall blk8 R -> (1 <= j <= length R)%nat -> set_blk (concat R ++ tl) j v = concat (upd R (j - 1) v) ++ tl.
Proof.
  intros F H. destruct (concat_split R (j - 1) F ltac:(lia)) as (R1 & R2 & E & L & LC). pose proof (blk8_nth R (j - 1) F ltac:(lia)) as [Lb _]. set (b := nth (j - 1) R []) in *.
  unfold set_blk. rewrite E. replace (upd (R1 ++ b :: R2) (j - 1) v) with (R1 ++ v :: R2) by (rewrite <- L; symmetry; apply upd_app). rewrite !concat_app. cbn [concat]. rewrite <- !app_assoc. rewrite firstn_exact by auto. f_equal. f_equal.
  replace (8 * j)%nat with (8 * (j - 1) + 8)%nat by lia. rewrite <- skipn_skipn. rewrite skipn_exact by auto. apply skipn_exact. auto.
Qed.
Lemma fold_prod {A B C} (f : A -> B * C -> A) (l2 : list C) : forall l1 a, fold_left f (list_prod l1 l2) a = fold_left (fun a x => fold_left (fun a y => f a (x, y)) l2 a) l1 a.
Proof.
  induction l1 as [|x l1 IH]; intro a; [reflexivity|]. cbn [list_prod fold_left]. rewrite fold_left_app, IH. f_equal.
  generalize a. clear. induction l2 as [|y l2 IH]; intro a; [reflexivity|]. cbn. apply IH.
Qed.
Lemma fold_prod_rev {A B C} (f : A -> B * C -> A) (l2 : list C) : forall l1 a, fold_left f (rev (list_prod l1 l2)) a = fold_left (fun a x => fold_left (fun a y => f a (x, y)) (rev l2) a) (rev l1) a.
Proof.
  induction l1 as [|x l1 IH]; intro a; [reflexivity|]. cbn [list_prod rev]. rewrite rev_app_distr, !fold_left_app, IH. cbn [fold_left]. 
  set (a' := fold_left _ (rev l1) a). generalize a'. clear. intro a. rewrite <- map_rev. revert a. induction (rev l2) as [|y l IH]; intro a; [reflexivity|]. cbn. apply IH.
Qed.
Lemma xor7_ok x n i j : blk8 x -> xor7 x n i j = xorl x (be_bytes 8 (tstep n (i, j) mod 256)).
Proof.
  intros [L H]. do 9 (destruct x as [|? x]; try discriminate L). unfold xor7, tstep. cbn [fst snd nth upd].
  replace (Z.of_nat n * Z.of_nat i + Z.of_nat j) with (Z.of_nat (n * i + j)) by lia. set (t := Z.of_nat (n * i + j)).
  assert (Et : be_bytes 8 (t mod 256) = [0; 0; 0; 0; 0; 0; 0; t mod 256]).
  { pose proof (Z.mod_pos_bound t 256 ltac:(lia)) as Hm. set (m := t mod 256) in *.
    apply be_val_inj; [apply be_bytes_bytes|repeat constructor; unfold byte; lia|rewrite be_bytes_length; reflexivity|].
    rewrite be_val_bytes, Z.mod_small; [|change (Z.of_nat 8) with 8; lia]. cbv [be_val fold_left]. lia. }
  rewrite Et. cbn [xorl]. rewrite !Z.lxor_0_r. do 7 f_equal. f_equal.
  change 256 with (2 ^ 8). rewrite <- !Z.land_ones by lia. apply Z.bits_inj'. intros k Hk. rewrite ?Z.land_spec, ?Z.lxor_spec, ?Z.land_spec.
  destruct (Z.ltb_spec k 8).
  - rewrite !Z.ones_spec_low by lia. rewrite !andb_true_r. reflexivity.
  - rewrite !(Z.ones_spec_high 8) by lia. rewrite !andb_false_r. rewrite xorb_false_r.
    assert (Hb : byte z6) by (repeat (inversion H as [|? ? ? H']; subst; clear H; rename H' into H); assumption).
    symmetry. destruct (Z.eq_dec z6 0) as [->|]; [apply Z.bits_0|]. apply Z.bits_above_log2; [unfold byte in Hb; lia|]. apply Z.log2_lt_pow2; [unfold byte in Hb; lia|].
    unfold byte in Hb. assert (2 ^ 8 <= 2 ^ k) by (apply Z.pow_le_mono_r; lia). lia.
Qed.
