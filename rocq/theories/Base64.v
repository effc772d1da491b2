(** Proofs about Base64. *)
From Verif Require Import Base Base64Spec Base64Model.

Definition dom (n : nat) : list Z := map Z.of_nat (seq 0 n).
Lemma dom_in n x : 0 <= x < Z.of_nat n -> In x (dom n).
Proof. intro H. apply in_map_iff. exists (Z.to_nat x). split; [lia|]. apply in_seq. lia. Qed.
Lemma all1 n (P : Z -> bool) : forallb P (dom n) = true -> forall x, 0 <= x < Z.of_nat n -> P x = true.
Proof. intros F x H. rewrite forallb_forall in F. apply F, dom_in; auto. Qed.
Lemma all2 m n (P : Z -> Z -> bool) : forallb (fun a => forallb (P a) (dom n)) (dom m) = true ->
  forall x y, 0 <= x < Z.of_nat m -> 0 <= y < Z.of_nat n -> P x y = true.
Proof. intros F x y Hx Hy. apply (all1 n _ (all1 m _ F x Hx)); auto. Qed.

(** Index computations. *)
Definition i0 a := Z.shiftr (Z.land a 0xFC) 2.
Definition i1 a b := Z.lor (Z.shiftl (Z.land a 0x03) 4) (Z.shiftr (Z.land b 0xF0) 4).
Definition i2 b c := Z.lor (Z.shiftl (Z.land b 0x0F) 2) (Z.shiftr (Z.land c 0xC0) 6).
Definition i3 c := Z.land c 0x3F.

Lemma b64_alphabet i : 0 <= i < 64 -> b64 i = alphabet i /\ legal (b64 i) = true /\ unb (b64 i) = i /\ (b64 i =? 61) = false.
Proof.
  intro H. assert (F : forallb (fun i => (b64 i =? alphabet i) && legal (b64 i) && (unb (b64 i) =? i) && negb (b64 i =? 61))%bool (dom 64) = true) by (vm_compute; reflexivity).
  pose proof (all1 64 _ F i H) as E. cbn beta in E. rewrite !Bool.andb_true_iff in E. destruct E as (((E1 & E2) & E3) & E4).
  apply Z.eqb_eq in E1, E3. apply Bool.negb_true_iff in E4. auto.
Qed.

Lemma i0_ok a : byte a -> 0 <= i0 a < 64 /\
  i0 a = bits_val [Z.testbit a 7; Z.testbit a 6; Z.testbit a 5; Z.testbit a 4; Z.testbit a 3; Z.testbit a 2].
Proof.
  intro H. assert (F : forallb (fun a => (0 <=? i0 a) && (i0 a <? 64) && (i0 a =? bits_val [Z.testbit a 7; Z.testbit a 6; Z.testbit a 5; Z.testbit a 4; Z.testbit a 3; Z.testbit a 2]))%bool (dom 256) = true) by (vm_compute; reflexivity).
  pose proof (all1 256 _ F a H) as E. cbn beta in E. rewrite !Bool.andb_true_iff in E. lia.
Qed.
Lemma i1_ok a b : byte a -> byte b -> 0 <= i1 a b < 64 /\
  i1 a b = bits_val [Z.testbit a 1; Z.testbit a 0; Z.testbit b 7; Z.testbit b 6; Z.testbit b 5; Z.testbit b 4] /\
  Z.shiftr (Z.land (i1 a b) 0x30) 4 = Z.land a 3 /\ Z.land (i1 a b) 0x0F = Z.shiftr b 4.
Proof.
  intros _ Hb. assert (L : i1 (Z.land a 3) b = i1 a b) by (unfold i1; rewrite <- Z.land_assoc; reflexivity).
  assert (T : forall k, 0 <= k < 2 -> Z.testbit (Z.land a 3) k = Z.testbit a k).
  { intros k K. rewrite Z.land_spec. replace (Z.testbit 3 k) with true; [apply Bool.andb_true_r|]. assert (k = 0 \/ k = 1) as [-> | ->] by lia; reflexivity. }
  rewrite <- L, <- (T 0), <- (T 1) by lia. pose proof (Z.land_ones a 2 ltac:(lia)) as A. change (Z.ones 2) with 3 in A. pose proof (Z.mod_pos_bound a (2 ^ 2) ltac:(reflexivity)) as Ha. rewrite <- A in Ha. clear L T A.
  generalize dependent (Z.land a 3). clear a. intros a Ha.
  assert (F : forallb (fun a => forallb (fun b => (0 <=? i1 a b) && (i1 a b <? 64) &&
    (i1 a b =? bits_val [Z.testbit a 1; Z.testbit a 0; Z.testbit b 7; Z.testbit b 6; Z.testbit b 5; Z.testbit b 4]) &&
    (Z.shiftr (Z.land (i1 a b) 0x30) 4 =? a) && (Z.land (i1 a b) 0x0F =? Z.shiftr b 4))%bool (dom 256)) (dom 4) = true) by (vm_compute; reflexivity).
  pose proof (all2 4 256 _ F a b Ha Hb) as E. cbn beta in E. rewrite !Bool.andb_true_iff, !Z.eqb_eq in E. lia.
Qed.
Lemma i2_ok b c : byte b -> byte c -> 0 <= i2 b c < 64 /\
  i2 b c = bits_val [Z.testbit b 3; Z.testbit b 2; Z.testbit b 1; Z.testbit b 0; Z.testbit c 7; Z.testbit c 6] /\
  Z.shiftr (Z.land (i2 b c) 0x3C) 2 = Z.land b 15 /\ Z.land (i2 b c) 0x03 = Z.shiftr c 6.
Proof.
  intros _ Hc. assert (L : i2 (Z.land b 15) c = i2 b c) by (unfold i2; rewrite <- Z.land_assoc; reflexivity).
  assert (T : forall k, 0 <= k < 4 -> Z.testbit (Z.land b 15) k = Z.testbit b k).
  { intros k K. rewrite Z.land_spec. replace (Z.testbit 15 k) with true; [apply Bool.andb_true_r|]. assert (k = 0 \/ k = 1 \/ k = 2 \/ k = 3) as [-> | [-> | [-> | ->]]] by lia; reflexivity. }
  rewrite <- L, <- (T 0), <- (T 1), <- (T 2), <- (T 3) by lia. pose proof (Z.land_ones b 4 ltac:(lia)) as A. change (Z.ones 4) with 15 in A. pose proof (Z.mod_pos_bound b (2 ^ 4) ltac:(reflexivity)) as Hb. rewrite <- A in Hb. clear L T A.
  generalize dependent (Z.land b 15). clear b. intros b Hb.
  assert (F : forallb (fun b => forallb (fun c => (0 <=? i2 b c) && (i2 b c <? 64) &&
    (i2 b c =? bits_val [Z.testbit b 3; Z.testbit b 2; Z.testbit b 1; Z.testbit b 0; Z.testbit c 7; Z.testbit c 6]) &&
    (Z.shiftr (Z.land (i2 b c) 0x3C) 2 =? b) && (Z.land (i2 b c) 0x03 =? Z.shiftr c 6))%bool (dom 256)) (dom 16) = true) by (vm_compute; reflexivity).
  pose proof (all2 16 256 _ F b c Hb Hc) as E. cbn beta in E. rewrite !Bool.andb_true_iff, !Z.eqb_eq in E. lia.
Qed.
Lemma i3_ok c : byte c -> 0 <= i3 c < 64 /\
  i3 c = bits_val [Z.testbit c 5; Z.testbit c 4; Z.testbit c 3; Z.testbit c 2; Z.testbit c 1; Z.testbit c 0] /\
  Z.lor (Z.shiftl (Z.shiftr c 6) 6) (i3 c) mod 256 = c /\ Z.lor (Z.shiftl (Z.shiftr c 4) 4) (Z.land c 15) mod 256 = c /\
  Z.lor (Z.shiftl (i0 c) 2) (Z.land c 3) mod 256 = c.
Proof.
  intros Hc. assert (F : forallb (fun c => (0 <=? i3 c) && (i3 c <? 64) &&
    (i3 c =? bits_val [Z.testbit c 5; Z.testbit c 4; Z.testbit c 3; Z.testbit c 2; Z.testbit c 1; Z.testbit c 0]) &&
    (Z.lor (Z.shiftl (Z.shiftr c 6) 6) (i3 c) mod 256 =? c) && (Z.lor (Z.shiftl (Z.shiftr c 4) 4) (Z.land c 15) mod 256 =? c) &&
    (Z.lor (Z.shiftl (i0 c) 2) (Z.land c 3) mod 256 =? c))%bool (dom 256) = true) by (vm_compute; reflexivity).
  pose proof (all1 256 _ F c Hc) as E. cbn beta in E. rewrite !Bool.andb_true_iff, !Z.eqb_eq in E. lia.
Qed.

(** Tail cases as instances of the pair functions with a zero byte. *)
Lemma i1_0 a : Z.shiftl (Z.land a 0x03) 4 = i1 a 0. Proof. unfold i1. cbn [Z.land Z.shiftr]. rewrite Z.lor_0_r. reflexivity. Qed.
Lemma i2_0 b : Z.shiftl (Z.land b 0x0F) 2 = i2 b 0. Proof. unfold i2. cbn [Z.land Z.shiftr]. rewrite Z.lor_0_r. reflexivity. Qed.
Lemma byte_0 : byte 0. Proof. unfold byte. lia. Qed.

(** Induction three bytes at a time. *)
Lemma ind3 (P : list Z -> Prop) : P [] -> (forall a, P [a]) -> (forall a b, P [a; b]) ->
  (forall a b c r, P r -> P (a :: b :: c :: r)) -> forall l, P l.
Proof.
  intros H0 H1 H2 H3 l. assert (G : forall n l, (length l <= n)%nat -> P l); [|apply (G (length l)); auto].
  induction n as [|n IH]; intros [|a [|b [|c r]]] L; cbn [length] in L; auto; try lia. apply H3, IH. lia.
Qed.

Lemma encode_length l : length (encode_loop l) = (4 * ((length l + 2) / 3))%nat.
Proof.
  induction l as [|a|a b|a b c r IH] using ind3; try reflexivity. cbn [encode_loop length]. rewrite IH.
  replace (S (S (S (length r))) + 2)%nat with (length r + 2 + 1 * 3)%nat by lia. rewrite Nat.div_add by lia. lia.
Qed.

Lemma groups_length3 a b c r : length (groups6 (flat_map bits_msb (a :: b :: c :: r))) = (4 + length (groups6 (flat_map bits_msb r)))%nat.
Proof. reflexivity. Qed.

Lemma encode_rfc l : bytes l -> encode_loop l = rfc4648 l.
Proof.
  induction l as [|a|a b|a b c r IH] using ind3; intro H.
  - reflexivity.
  - inversion H as [|? ? Ha]; subst. pose proof (i0_ok a Ha) as [B0 E0]. destruct (i1_ok a 0 Ha byte_0) as (B1 & E1 & _).
    cbn [encode_loop]. rewrite i1_0. fold (i0 a). rewrite (proj1 (b64_alphabet _ B0)), (proj1 (b64_alphabet _ B1)), E0, E1.
    rewrite !Z.bits_0. reflexivity.
  - inversion H as [|? ? Ha H']; subst. inversion H' as [|? ? Hb]; subst. pose proof (i0_ok a Ha) as [B0 E0].
    destruct (i1_ok a b Ha Hb) as (B1 & E1 & _). destruct (i2_ok b 0 Hb byte_0) as (B2 & E2 & _).
    cbn [encode_loop]. rewrite i2_0. fold (i0 a). fold (i1 a b).
    rewrite (proj1 (b64_alphabet _ B0)), (proj1 (b64_alphabet _ B1)), (proj1 (b64_alphabet _ B2)), E0, E1, E2. rewrite !Z.bits_0. reflexivity.
  - inversion H as [|? ? Ha H']; subst. inversion H' as [|? ? Hb H'']; subst. inversion H'' as [|? ? Hc Hr]; subst.
    pose proof (i0_ok a Ha) as [B0 E0]. destruct (i1_ok a b Ha Hb) as (B1 & E1 & _). destruct (i2_ok b c Hb Hc) as (B2 & E2 & _). destruct (i3_ok c Hc) as (B3 & E3 & _).
    cbn [encode_loop]. fold (i0 a). fold (i1 a b). fold (i2 b c). fold (i3 c).
    rewrite (proj1 (b64_alphabet _ B0)), (proj1 (b64_alphabet _ B1)), (proj1 (b64_alphabet _ B2)), (proj1 (b64_alphabet _ B3)), E0, E1, E2, E3, (IH Hr).
    unfold rfc4648. cbn [flat_map bits_msb app groups6 map length]. do 4 f_equal.
    set (s := map alphabet (groups6 (flat_map bits_msb r))). do 3 f_equal.
    change (S (S (S (S (length s))))) with (4 + length s)%nat. replace (4 + length s)%nat with (length s + 1 * 4)%nat by lia.
    rewrite Nat.mod_add by lia. reflexivity.
Qed.

Lemma decode_encode_loop l : bytes l -> decode_loop (encode_loop l) = Ok l.
Proof.
  induction l as [|a|a b|a b c r IH] using ind3; intro H.
  - reflexivity.
  - inversion H as [|? ? Ha]; subst. pose proof (i0_ok a Ha) as [B0 _]. destruct (i1_ok a 0 Ha byte_0) as (B1 & _ & E1 & _).
    destruct (i3_ok a Ha) as (_ & _ & _ & _ & R).
    cbn [encode_loop]. rewrite i1_0. fold (i0 a). cbn [decode_loop].
    destruct (b64_alphabet _ B0) as (_ & L0 & U0 & _). destruct (b64_alphabet _ B1) as (_ & L1 & U1 & _).
    rewrite L0, L1, U0, U1, E1, R. reflexivity.
  - inversion H as [|? ? Ha H']; subst. inversion H' as [|? ? Hb]; subst. pose proof (i0_ok a Ha) as [B0 _].
    destruct (i1_ok a b Ha Hb) as (B1 & _ & E1 & F1). destruct (i2_ok b 0 Hb byte_0) as (B2 & _ & E2 & _).
    destruct (i3_ok a Ha) as (_ & _ & _ & _ & R). destruct (i3_ok b Hb) as (_ & _ & _ & R' & _).
    cbn [encode_loop]. rewrite i2_0. fold (i0 a). fold (i1 a b). cbn [decode_loop].
    destruct (b64_alphabet _ B0) as (_ & L0 & U0 & _). destruct (b64_alphabet _ B1) as (_ & L1 & U1 & _). destruct (b64_alphabet _ B2) as (_ & L2 & U2 & N2).
    rewrite L0, L1, L2, U0, U1, U2, E1, F1, E2, R, R', N2. reflexivity.
  - inversion H as [|? ? Ha H']; subst. inversion H' as [|? ? Hb H'']; subst. inversion H'' as [|? ? Hc Hr]; subst.
    pose proof (i0_ok a Ha) as [B0 _]. destruct (i1_ok a b Ha Hb) as (B1 & _ & E1 & F1). destruct (i2_ok b c Hb Hc) as (B2 & _ & E2 & F2). destruct (i3_ok c Hc) as (B3 & _ & R3 & _).
    destruct (i3_ok a Ha) as (_ & _ & _ & _ & R). destruct (i3_ok b Hb) as (_ & _ & _ & R' & _).
    cbn [encode_loop]. fold (i0 a). fold (i1 a b). fold (i2 b c). fold (i3 c). cbn [decode_loop].
    destruct (b64_alphabet _ B0) as (_ & L0 & U0 & _). destruct (b64_alphabet _ B1) as (_ & L1 & U1 & _).
    destruct (b64_alphabet _ B2) as (_ & L2 & U2 & N2). destruct (b64_alphabet _ B3) as (_ & L3 & U3 & N3).
    rewrite L0, L1, L2, L3, U0, U1, U2, U3, E1, F1, E2, F2, R, R', R3, N2, N3, (IH Hr). reflexivity.
Qed.

Lemma encode_ok l : bytes l -> l <> [] -> exists s, encode l = Ok s /\ s = rfc4648 l /\ decode s = Ok l /\ length s = (4 * ((length l + 2) / 3))%nat.
Proof.
  intros H N. exists (encode_loop l). split; [destruct l; [contradiction|reflexivity]|]. split; [apply encode_rfc; auto|].
  split; [|apply encode_length]. unfold decode. rewrite encode_length. rewrite Nat.mul_comm, Nat.mod_mul by lia. cbn [Nat.eqb negb].
  destruct (encode_loop l) as [|c s] eqn:E; [destruct l as [|? [|? [|? ?]]]; [contradiction|discriminate..]|].
  rewrite <- E. apply decode_encode_loop; auto.
Qed.

Lemma decode_bad_length l : (length l mod 4 <> 0)%nat -> decode l = Err (-1).
Proof. intro H. unfold decode. apply Nat.eqb_neq in H. rewrite H. reflexivity. Qed.

(** A foreign character is rejected wherever it occurs. *)
Lemma decode_bad_char l : (length l mod 4 = 0)%nat -> (exists c, In c l /\ legal c = false) -> decode l = Err (-1).
Proof.
  intros L (c & I & C). unfold decode. rewrite (proj2 (Nat.eqb_eq _ _) L). cbn [negb].
  destruct l as [|x l]; [destruct I|]. revert L I. generalize (x :: l). clear x l. intro l.
  assert (G : forall n l, (length l <= n)%nat -> (length l mod 4 = 0)%nat -> In c l -> decode_loop l = Err (-1)); [|intros; apply (G (length l)); auto].
  clear l. induction n as [|n IH]; intros l L M I; [destruct l; [destruct I|cbn in L; lia]|].
  destruct l as [|p [|q [|r [|s l]]]]; [destruct I|cbn in M; discriminate..|]. cbn [decode_loop].
  destruct (legal p) eqn:Ep, (legal q) eqn:Eq, (legal r) eqn:Er, (legal s) eqn:Es; cbn [andb]; auto.
  rewrite IH; auto.
  - cbn in L. lia.
  - cbn [length] in M. replace (S (S (S (S (length l))))) with (length l + 1 * 4)%nat in M by lia. rewrite Nat.mod_add in M by lia. auto.
  - destruct I as [->|[->|[->|[->|I]]]]; congruence || auto.
Qed.

Lemma legal_spec c : byte c -> legal c = true <-> c = 61 \/ exists i, 0 <= i < 64 /\ c = alphabet i.
Proof.
  intro H. assert (F : forallb (fun c => Bool.eqb (legal c) ((c =? 61) || existsb (fun i => c =? alphabet i) (dom 64)))%bool (dom 256) = true) by (vm_compute; reflexivity).
  pose proof (all1 256 _ F c H) as E. cbn beta in E. apply Bool.eqb_prop in E. rewrite E, Bool.orb_true_iff, existsb_exists, Z.eqb_eq.
  split; intros [->|(i & I & X)]; auto; right; exists i; (split; [|lia]).
  - apply in_map_iff in I as (n & <- & I). apply in_seq in I. lia.
  - apply dom_in. auto.
Qed.
