(** Words, rotations, byte order. *)
From Verif Require Import Base Bits BytesSpec Bytes Lists HashTables HashModel HashSpec.

Definition wordw (w x : Z) : Prop := 0 <= x < 2 ^ w.
Lemma wordw_mod w x : 0 <= w -> wordw w (x mod 2 ^ w).
Proof. intro. apply Z.mod_pos_bound. apply Z.pow_pos_nonneg; lia. Qed.
Lemma wadd_word w a b : 0 <= w -> wordw w (wadd w a b).
Proof. apply wordw_mod. Qed.
Lemma rot_split w n x : 0 <= n <= w -> wordw w x -> 0 <= x / 2 ^ n < 2 ^ (w - n) /\ 0 <= x mod 2 ^ n < 2 ^ n.
Proof.
  intros Hn Hx. unfold wordw in Hx. assert (P : 0 < 2 ^ n) by (apply Z.pow_pos_nonneg; lia).
  split; [|apply Z.mod_pos_bound; auto]. split; [apply Z.div_pos; lia|]. apply Z.div_lt_upper_bound; auto.
  rewrite <- Z.pow_add_r by lia. replace (n + (w - n)) with w by lia. lia.
Qed.
Lemma rotr_ok w n x : 0 <= n <= w -> wordw w x -> rotr w x n = ROTR w n x.
Proof.
  intros Hn Hx. destruct (rot_split w n x Hn Hx) as [H1 H2]. unfold rotr, ROTR.
  rewrite Z.shiftr_div_pow2, Z.shiftl_mul_pow2 by lia.
  assert (E : (x * 2 ^ (w - n)) mod 2 ^ w = (x mod 2 ^ n) * 2 ^ (w - n)).
  { replace w with (n + (w - n)) at 2 by lia. rewrite Z.pow_add_r by lia. apply Zmult_mod_distr_r. }
  rewrite E, Z.lor_comm, lor_shifted_small by lia. lia.
Qed.
Lemma rotl_ok w n x : 0 <= n <= w -> wordw w x -> rotl w x n = ROTL w n x.
Proof.
  intros Hn Hx. destruct (rot_split w (w - n) x ltac:(lia) Hx) as [H1 H2]. replace (w - (w - n)) with n in H1 by lia. unfold rotl, ROTL.
  rewrite Z.shiftr_div_pow2, Z.shiftl_mul_pow2 by lia.
  assert (E : (x * 2 ^ n) mod 2 ^ w = (x mod 2 ^ (w - n)) * 2 ^ n).
  { replace w with ((w - n) + n) at 1 by lia. rewrite Z.pow_add_r by lia. apply Zmult_mod_distr_r. }
  rewrite E, lor_shifted_small by lia. lia.
Qed.
Lemma ROTR_word w n x : 0 <= n <= w -> wordw w x -> wordw w (ROTR w n x).
Proof.
  intros Hn Hx. destruct (rot_split w n x Hn Hx) as [H1 H2]. unfold ROTR, wordw in *.
  replace (2 ^ w) with (2 ^ n * 2 ^ (w - n)) by (rewrite <- Z.pow_add_r by lia; f_equal; lia). nia.
Qed.
Lemma ROTL_word w n x : 0 <= n <= w -> wordw w x -> wordw w (ROTL w n x).
Proof.
  intros Hn Hx. destruct (rot_split w (w - n) x ltac:(lia) Hx) as [H1 H2]. replace (w - (w - n)) with n in H1 by lia. unfold ROTL, wordw in *.
  replace (2 ^ w) with (2 ^ (w - n) * 2 ^ n) by (rewrite <- Z.pow_add_r by lia; f_equal; lia). nia.
Qed.
Lemma wnot_ok w x : 0 <= w -> wordw w x -> wnot w x = 2 ^ w - 1 - x.
Proof. intros Hw Hx. unfold wnot, Z.lnot, wordw in *. symmetry. apply (Z.mod_unique _ _ (-1)); lia. Qed.
Lemma wnot_land w x z : 0 <= w -> wordw w z -> Z.land (wnot w x) z = Z.land (Z.lnot x) z.
Proof.
  intros Hw Hz. unfold wnot. rewrite <- Z.land_ones by auto. rewrite <- Z.land_assoc. f_equal.
  rewrite Z.land_comm, Z.land_ones by auto. apply Z.mod_small. exact Hz.
Qed.
Lemma lxor_word w a b : 0 <= w -> wordw w a -> wordw w b -> wordw w (Z.lxor a b).
Proof. unfold wordw. intros. apply lxor_bound; lia. Qed.
Lemma xor3_word w a b c : 0 <= w -> wordw w a -> wordw w b -> wordw w c -> wordw w (xor3 a b c).
Proof. intros. unfold xor3. auto using lxor_word. Qed.
Lemma shr_ok x n : 0 <= n -> Z.shiftr x n = SHR n x.
Proof. intro. apply Z.shiftr_div_pow2. auto. Qed.

(** choice and majority *)
Lemma ch_xor x y z : Z.lxor z (Z.land x (Z.lxor y z)) = Ch x y z.
Proof.
  unfold Ch. apply Z.bits_inj'. intros i Hi. rewrite !Z.lxor_spec, !Z.land_spec, !Z.lxor_spec, Z.lnot_spec by auto.
  destruct (Z.testbit x i), (Z.testbit y i), (Z.testbit z i); reflexivity.
Qed.
Lemma maj_or x y z : Z.lor (Z.land x y) (Z.land z (Z.lor x y)) = Maj x y z.
Proof.
  unfold Maj, xor3. apply Z.bits_inj'. intros i Hi. rewrite !Z.lxor_spec, !Z.lor_spec, !Z.land_spec, !Z.lor_spec.
  destruct (Z.testbit x i), (Z.testbit y i), (Z.testbit z i); reflexivity.
Qed.

(** * Bytes *)
Lemma skipn_nth {A} (d : A) k : forall l, (k < length l)%nat -> skipn k l = nth k l d :: skipn (S k) l.
Proof. induction k as [|k IH]; intros [|x l] H; cbn [length] in H; try lia; [reflexivity|]. cbn [skipn nth]. rewrite IH by lia. reflexivity. Qed.
Lemma firstn_snoc {A} (d : A) n o (l : list A) : (o + n < length l)%nat -> firstn (S n) (skipn o l) = firstn n (skipn o l) ++ [nth (o + n) l d].
Proof.
  intro L. rewrite <- (firstn_skipn n (firstn (S n) (skipn o l))). f_equal.
  - rewrite firstn_firstn. f_equal. lia.
  - rewrite skipn_firstn_comm. replace (S n - n)%nat with 1%nat by lia. rewrite skipn_skipn.
    rewrite (skipn_nth d) by lia. reflexivity.
Qed.
Lemma read_be_ok n : forall l o, bytes l -> (o + n <= length l)%nat -> read_be n l o = be_val (firstn n (skipn o l)).
Proof.
  induction n as [|n IH]; intros l o Hb L; [reflexivity|]. cbn [read_be]. rewrite IH by (auto; lia).
  rewrite (firstn_snoc 0) by lia. rewrite be_val_snoc. change 256 with (2 ^ 8). rewrite lor_shifted_small; [lia|lia|].
  apply (Forall_nth_d byte); auto. unfold byte. lia.
Qed.
Lemma read_le_ok n : forall l o, bytes l -> (o + n <= length l)%nat -> read_le n l o = le_val (firstn n (skipn o l)).
Proof.
  induction n as [|n IH]; intros l o Hb L; [reflexivity|]. cbn [read_le]. rewrite IH by (auto; lia).
  rewrite (skipn_nth 0 o l) by lia. cbn [firstn le_val]. replace (o + 1)%nat with (S o) by lia.
  change 256 with (2 ^ 8). rewrite lor_small_shifted; [lia|lia|]. apply (Forall_nth_d byte); auto. unfold byte. lia.
Qed.
Lemma chunks_read {A} (rd : nat -> A) (val : list Z -> A) n k : (0 < n)%nat -> forall l, length l = (n * k)%nat ->
  (forall i, (i < k)%nat -> rd i = val (firstn n (skipn (n * i) l))) -> map rd (seq 0 k) = map val (chunks n l).
Proof.
  intro Hn. revert rd. induction k as [|k IH]; intros rd l L H.
  - destruct l; [reflexivity|cbn [length] in L; lia].
  - rewrite <- (firstn_skipn n l). rewrite chunks_app by (auto; rewrite firstn_length_le; nia). cbn [seq map]. f_equal.
    + rewrite H by lia. rewrite Nat.mul_0_r. reflexivity.
    + rewrite <- seq_shift, map_map. apply IH.
      * rewrite skipn_length. nia.
      * intros i Hi. rewrite H by lia. f_equal. f_equal. rewrite skipn_skipn. f_equal. nia.
Qed.
Lemma read_words_be n k l : (0 < n)%nat -> bytes l -> length l = (n * k)%nat -> map (fun i => read_be n l (n * i)) (seq 0 k) = words_be n l.
Proof. intros Hn Hb L. apply chunks_read; auto. intros i Hi. apply read_be_ok; auto. nia. Qed.
Lemma read_words_le n k l : (0 < n)%nat -> bytes l -> length l = (n * k)%nat -> map (fun i => read_le n l (n * i)) (seq 0 k) = map le_val (chunks n l).
Proof. intros Hn Hb L. apply chunks_read; auto. intros i Hi. apply read_le_ok; auto. nia. Qed.
Lemma write_le_ok n v : write_le n v = le_bytes n v.
Proof.
  apply (list_eq 0); [unfold write_le; rewrite map_length, seq_length, le_bytes_length; reflexivity|].
  intros i Hi. unfold write_le in *. rewrite map_length, seq_length in Hi. rewrite le_bytes_nth by auto.
  set (g := fun i : nat => _). rewrite (nth_indep _ _ (g 0%nat)) by (rewrite map_length, seq_length; auto).
  rewrite map_nth, seq_nth by auto. unfold g. cbn [Nat.add]. change 255 with (Z.ones 8). rewrite Z.land_ones by lia.
  rewrite Z.shiftr_div_pow2 by lia. rewrite Z.pow_mul_r by lia. reflexivity.
Qed.
Lemma write_be_ok n v : write_be n v = be_bytes n v.
Proof. unfold write_be, be_bytes. rewrite <- write_le_ok. unfold write_le. rewrite map_rev. reflexivity. Qed.
Lemma chunks_all {A} (P : list Z -> Prop) (Q : A -> Prop) (val : list Z -> A) n l : (0 < n)%nat -> bytes l -> Nat.divide n (length l) ->
  (forall b, length b = n -> bytes b -> Q (val b)) -> Forall Q (map val (chunks n l)).
Proof.
  intros Hn Hb [k L] H. revert l Hb L. induction k as [|k IH]; intros l Hb L.
  - destruct l; [constructor|cbn [length] in L; lia].
  - rewrite <- (firstn_skipn n l). rewrite chunks_app by (auto; rewrite firstn_length_le; nia). cbn [map]. constructor.
    + apply H; [rewrite firstn_length_le; nia|apply bytes_firstn; auto].
    + apply IH; [apply bytes_skipn; auto|rewrite skipn_length; nia].
Qed.
Lemma words_be_words n k l : (0 < n)%nat -> bytes l -> length l = (n * k)%nat -> Forall (wordw (8 * Z.of_nat n)) (words_be n l) /\ length (words_be n l) = k.
Proof.
  intros Hn Hb L. split.
  - apply (chunks_all (fun _ => True)); auto; [exists k; rewrite L; apply Nat.mul_comm|]. intros b Lb Bb. pose proof (be_val_bound b Bb) as H. rewrite Lb in H.
    unfold wordw. rewrite Z.pow_mul_r by lia. exact H.
  - rewrite <- (read_words_be n k) by auto. rewrite map_length, seq_length. reflexivity.
Qed.
Lemma words_le_words k l : bytes l -> length l = (4 * k)%nat -> Forall (wordw 32) (map le_val (chunks 4 l)) /\ length (map le_val (chunks 4 l)) = k.
Proof.
  intros Hb L. split.
  - apply (chunks_all (fun _ => True)); auto; [exists k; lia|]. intros b Lb Bb. pose proof (le_val_bound b Bb) as H. rewrite Lb in H. exact H.
  - rewrite <- (read_words_le 4 k) by (auto; lia). rewrite map_length, seq_length. reflexivity.
Qed.
Lemma ctx_add_ok w a b : ctx_add w a b = add_words w a b.
Proof. reflexivity. Qed.
Lemma add_words_word w a b : 0 <= w -> Forall (wordw w) (add_words w a b).
Proof. intro Hw. apply Forall_forall. intros x Hx. unfold add_words in Hx. apply in_map_iff in Hx as (p & <- & _). apply wordw_mod; auto. Qed.
Lemma add_words_length w a b : length a = length b -> length (add_words w a b) = length a.
Proof. intro L. unfold add_words. rewrite map_length, combine_length. lia. Qed.
Lemma nat_iter_r {A} n (f : A -> A) x : Nat.iter (S n) f x = Nat.iter n f (f x).
Proof. induction n as [|n IH]; [reflexivity|]. change (f (Nat.iter (S n) f x) = f (Nat.iter n f (f x))). rewrite IH. reflexivity. Qed.
(** sums modulo 2^w *)
Lemma wadd_l w a b c : wadd w (wadd w a b) c = wadd w (a + b) c.
Proof. unfold wadd. apply Zplus_mod_idemp_l. Qed.
Lemma wadd_r w a b c : wadd w c (wadd w a b) = wadd w c (a + b).
Proof. unfold wadd. apply Zplus_mod_idemp_r. Qed.
Ltac nowadd t := lazymatch t with context [wadd] => fail | _ => idtac end.
Ltac wsum := repeat match goal with
  | |- context [wadd ?w (wadd ?w ?a ?b) ?c] => nowadd a; nowadd b; rewrite (wadd_l w a b c)
  | |- context [wadd ?w ?c (wadd ?w ?a ?b)] => nowadd a; nowadd b; rewrite (wadd_r w a b c)
  end; unfold wadd; apply (f_equal (fun v => v mod _)); ring.
