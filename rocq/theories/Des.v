(** DES: bits of the byte buffers. *)
From Verif Require Import Base Bits BytesSpec Bytes Lists DesTables DesModel DesSpec.

Lemma odd_div b i : 0 <= i -> Z.odd (b / 2 ^ i) = Z.testbit b i.
Proof. intro. rewrite Z.testbit_odd, Z.shiftr_div_pow2 by auto. reflexivity. Qed.
Lemma byte_bits_tb b : byte_bits b = map (Z.testbit b) [7; 6; 5; 4; 3; 2; 1; 0].
Proof. unfold byte_bits. apply map_ext_in. intros i Hi. apply odd_div. cbn [In] in Hi. lia. Qed.
Lemma byte_bits_len b : length (byte_bits b) = 8%nat. Proof. reflexivity. Qed.
Lemma bits_len l : length (bits l) = (8 * length l)%nat.
Proof. unfold bits. induction l as [|b l IH]; [reflexivity|]. cbn [map concat length]. rewrite app_length, IH, byte_bits_len. lia. Qed.
Lemma bits_app a b : bits (a ++ b) = bits a ++ bits b.
Proof. unfold bits. rewrite map_app, concat_app. reflexivity. Qed.
Lemma nth_byte_bits b k : (k < 8)%nat -> nth k (byte_bits b) false = Z.testbit b (7 - Z.of_nat k).
Proof. intro H. rewrite byte_bits_tb. do 8 (destruct k as [|k]; [reflexivity|]). lia. Qed.
Lemma nth_bits l j : nth j (bits l) false = Z.testbit (nth (j / 8) l 0) (7 - Z.of_nat (j mod 8)).
Proof.
  revert j. induction l as [|b l IH]; intro j.
  - unfold bits. cbn [map concat]. destruct j; destruct (_ / 8)%nat; cbn [nth]; rewrite Z.testbit_0_l; reflexivity.
  - unfold bits. cbn [map concat]. fold (bits l). destruct (Nat.lt_ge_cases j 8) as [H|H].
    + rewrite app_nth1 by (rewrite byte_bits_len; auto). rewrite Nat.div_small, Nat.mod_small by auto. apply nth_byte_bits. auto.
    + rewrite app_nth2 by (rewrite byte_bits_len; auto). rewrite byte_bits_len, IH.
      replace j with ((j - 8) + 1 * 8)%nat at 3 4 by lia. rewrite Nat.div_add, Nat.mod_add by lia. rewrite Nat.add_1_r. reflexivity.
Qed.
Lemma land_pow2 x n : 0 <= n -> negb (Z.land x (2 ^ n) =? 0) = Z.testbit x n.
Proof.
  intro Hn. destruct (Z.testbit x n) eqn:E.
  - destruct (Z.eqb_spec (Z.land x (2 ^ n)) 0) as [Z|Z]; [|reflexivity]. exfalso.
    assert (Q : Z.testbit (Z.land x (2 ^ n)) n = true) by (rewrite Z.land_spec, E, Z.pow2_bits_true by auto; reflexivity). rewrite Z, Z.testbit_0_l in Q. discriminate.
  - assert (Z : Z.land x (2 ^ n) = 0).
    { apply Z.bits_inj'. intros i Hi. rewrite Z.land_spec, Z.testbit_0_l. destruct (Z.eq_dec i n) as [->|]; [rewrite E; reflexivity|].
      rewrite (Z.pow2_bits_false n i) by auto. apply andb_false_r. }
    rewrite Z. reflexivity.
Qed.
Lemma mask_pow2 k : (k < 8)%nat -> Z.shiftr 128 (Z.of_nat k) = 2 ^ (7 - Z.of_nat k).
Proof. intro H. do 8 (destruct k as [|k]; [reflexivity|]). lia. Qed.
Lemma get_bit_ok l j : get_bit l j = nth j (bits l) false.
Proof.
  unfold get_bit. assert (H : (j mod 8 < 8)%nat) by (apply Nat.mod_upper_bound; lia). rewrite mask_pow2 by auto. rewrite land_pow2 by lia. symmetry. apply nth_bits.
Qed.
Lemma set_bit_len l i : length (set_bit l i) = length l. Proof. apply upd_length. Qed.
Lemma set_bit_ok l i j : (i < 8 * length l)%nat -> nth j (bits (set_bit l i)) false = if Nat.eqb j i then true else nth j (bits l) false.
Proof.
  intro H. assert (Hm : forall n, (n mod 8 < 8)%nat) by (intro; apply Nat.mod_upper_bound; lia). rewrite !nth_bits. unfold set_bit.
  assert (Hi : (i / 8 < length l)%nat) by (apply Nat.div_lt_upper_bound; lia).
  rewrite nth_upd by auto. rewrite mask_pow2 by auto.
  destruct (Nat.eqb_spec (j / 8) (i / 8)) as [E|E].
  - rewrite E, Z.lor_spec. pose proof (Nat.div_mod i 8 ltac:(lia)). pose proof (Nat.div_mod j 8 ltac:(lia)). pose proof (Hm i). pose proof (Hm j).
    destruct (Nat.eqb_spec j i) as [->|Ne].
    + rewrite Z.pow2_bits_true by lia. apply orb_true_r.
    + rewrite Z.pow2_bits_false by lia. apply orb_false_r.
  - destruct (Nat.eqb_spec j i) as [->|]; [congruence|reflexivity].
Qed.
Lemma set_bit_bytes l i : bytes l -> bytes (set_bit l i).
Proof.
  intro Hb. assert (Hm : (i mod 8 < 8)%nat) by (apply Nat.mod_upper_bound; lia). apply Forall_upd; auto. rewrite mask_pow2 by auto.
  assert (B : byte (nth (i / 8) l 0)) by (apply (Forall_nth_d byte); auto; unfold byte; lia).
  unfold byte in *. change 256 with (2 ^ 8). apply lor_bound; [lia|exact B|]. split; [apply Z.pow_nonneg; lia|]. apply Z.pow_lt_mono_r; lia.
Qed.
Lemma permute_inv src tab len n : (n <= len * 8)%nat ->
  let d := fold_left (fun dst i => if get_bit src (nth i tab 0%nat - 1) then set_bit dst i else dst) (seq 0 n) (repeat 0 len) in
  length d = len /\ bytes d /\ forall j, nth j (bits d) false = if Nat.ltb j n then nth (nth j tab 0%nat - 1) (bits src) false else false.
Proof.
  induction n as [|n IH]; intro H.
  - cbn [seq fold_left]. split; [apply repeat_length|]. split; [apply bytes_repeat0|]. intro j. rewrite nth_bits. destruct (Nat.ltb_spec j 0); [lia|].
    assert (E : nth (j / 8) (repeat 0 len) 0 = 0) by apply nth_repeat. rewrite E. apply Z.testbit_0_l.
  - rewrite seq_S, fold_left_app. cbn [Nat.add fold_left]. destruct IH as (L & Hb & D); [lia|]. cbv zeta in *. set (d := fold_left _ (seq 0 n) _) in *.
    rewrite get_bit_ok. destruct (nth (nth n tab 0%nat - 1) (bits src) false) eqn:E.
    + split; [rewrite set_bit_len; auto|]. split; [apply set_bit_bytes; auto|]. intro j. rewrite set_bit_ok by lia. rewrite D.
      destruct (Nat.eqb_spec j n) as [->|]; [destruct (Nat.ltb_spec n (S n)); [congruence|lia]|].
      destruct (Nat.ltb_spec j n), (Nat.ltb_spec j (S n)); try lia; reflexivity.
    + split; [auto|]. split; [auto|]. intro j. rewrite D. destruct (Nat.eq_dec j n) as [->|].
      * rewrite Nat.ltb_irrefl. destruct (Nat.ltb_spec n (S n)); [congruence|lia].
      * destruct (Nat.ltb_spec j n), (Nat.ltb_spec j (S n)); try lia; reflexivity.
Qed.
Lemma select_len tab l : length (select tab l) = length tab. Proof. apply map_length. Qed.
Lemma nth_select tab l j : (j < length tab)%nat -> nth j (select tab l) false = nth (nth j tab 0%nat - 1) l false.
Proof. intro H. unfold select. set (g := fun t : nat => _). rewrite (nth_indep _ _ (g 0%nat)) by (rewrite map_length; auto). apply map_nth. Qed.
Lemma permute_ok src tab len : length tab = (len * 8)%nat ->
  length (permute src tab len) = len /\ bytes (permute src tab len) /\ bits (permute src tab len) = select tab (bits src).
Proof.
  intro L. destruct (permute_inv src tab len (len * 8) ltac:(lia)) as (A & B & C). fold (permute src tab len) in A, B, C. split; [auto|]. split; [auto|].
  apply (list_eq false); [rewrite bits_len, A, select_len; lia|]. intros j Hj. rewrite bits_len, A in Hj. rewrite C, nth_select by lia.
  destruct (Nat.ltb_spec j (len * 8)); [reflexivity|lia].
Qed.

(** * bits of bytes and back *)
Lemma bits_val_byte b : byte b -> bits_val (byte_bits b) = b.
Proof.
  intro H. assert (C : forallb (fun i => bits_val (byte_bits (Z.of_nat i)) =? Z.of_nat i) (seq 0 256) = true) by (vm_compute; reflexivity).
  assert (I : In (Z.to_nat b) (seq 0 256)) by (apply in_seq; unfold byte in H; lia).
  pose proof (proj1 (forallb_forall _ _) C _ I) as E. cbv beta in E. rewrite Z2Nat.id in E by (unfold byte in H; lia). lia.
Qed.
Lemma unbits_bits l : bytes l -> unbits (bits l) = l.
Proof.
  intro Hb. unfold unbits. rewrite bits_len. replace (8 * length l / 8)%nat with (length l) by (rewrite Nat.mul_comm, Nat.div_mul; lia).
  induction l as [|b l IH]; [reflexivity|]. inversion Hb; subst. cbn [length seq map]. f_equal.
  - change (skipn (8 * 0) (bits (b :: l))) with (byte_bits b ++ bits l). rewrite firstn_exact by reflexivity. apply bits_val_byte; auto.
  - rewrite <- seq_shift, map_map. rewrite <- IH at 2 by auto. apply map_ext. intro i. f_equal. f_equal.
    change (bits (b :: l)) with (byte_bits b ++ bits l). rewrite skipn_app. rewrite (skipn_all2 (byte_bits b)) by (rewrite byte_bits_len; lia).
    rewrite byte_bits_len. cbn [app]. f_equal. lia.
Qed.
Lemma bits_inj a b : bytes a -> bytes b -> bits a = bits b -> a = b.
Proof. intros Ha Hb E. rewrite <- (unbits_bits a Ha), <- (unbits_bits b Hb), E. reflexivity. Qed.
Lemma byte_bits_lxor a b : byte_bits (Z.lxor a b) = xorb_list (byte_bits a) (byte_bits b).
Proof. rewrite !byte_bits_tb. cbn [map combine xorb_list fst snd]. unfold xorb_list. cbn [map combine fst snd]. rewrite !Z.lxor_spec. reflexivity. Qed.
Lemma xorb_list_app a b c d : length a = length c -> xorb_list (a ++ b) (c ++ d) = xorb_list a c ++ xorb_list b d.
Proof. revert c. induction a as [|x a IH]; intros [|y c] L; try discriminate; [reflexivity|]. unfold xorb_list in *. cbn [app combine map]. f_equal. apply IH. auto. Qed.
Lemma bits_xorl a : forall b, length a = length b -> bits (xorl a b) = xorb_list (bits a) (bits b).
Proof.
  induction a as [|x a IH]; intros [|y b] L; try discriminate; [reflexivity|].
  change (xorl (x :: a) (y :: b)) with (Z.lxor x y :: xorl a b). unfold bits in *. cbn [map concat]. rewrite xorb_list_app by reflexivity. rewrite IH by auto. rewrite byte_bits_lxor. reflexivity.
Qed.
Lemma xorb_list_len a b : length a = length b -> length (xorb_list a b) = length a.
Proof. intro L. unfold xorb_list. rewrite map_length, combine_length. lia. Qed.
Lemma xorb_list_comm a : forall b, xorb_list a b = xorb_list b a.
Proof. induction a as [|x a IH]; intros [|y b]; try reflexivity. unfold xorb_list in *. cbn [combine map fst snd]. rewrite xorb_comm, IH. reflexivity. Qed.
Lemma xorb_list_invol a : forall b, length a = length b -> xorb_list (xorb_list a b) b = a.
Proof.
  induction a as [|x a IH]; intros [|y b] L; try discriminate; [reflexivity|]. unfold xorb_list in *. cbn [combine map fst snd]. rewrite IH by auto.
  rewrite xorb_assoc, xorb_nilpotent, xorb_false_r. reflexivity.
Qed.

(** * Key rotations *)
Definition rotr1 (l : list bool) : list bool := last l false :: removelast l.
Ltac tbit := rewrite ?Z.mod_pow2_bits_low by lia; rewrite ?Z.lor_spec, ?Z.land_spec, ?Z.lnot_spec, ?Z.lor_spec by lia; rewrite ?Z.shiftl_spec, ?Z.shiftr_spec by lia; rewrite ?Z.land_spec.
Lemma tb_high b i : byte b -> 8 <= i -> Z.testbit b i = false.
Proof. intros H Hi. unfold byte in H. apply (testbit_small b 8); [|lia]. change (2 ^ 8) with 256. lia. Qed.
