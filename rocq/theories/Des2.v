(** DES: key rotations, S boxes and one block. *)
From Verif Require Import Base Bits BytesSpec Bytes Lists Aes DesTables DesModel DesSpec Des HashBase HashComp.

Lemma seven (l : list Z) : length l = 7%nat -> l = [nth 0 l 0; nth 1 l 0; nth 2 l 0; nth 3 l 0; nth 4 l 0; nth 5 l 0; nth 6 l 0].
Proof. intro L. do 7 (destruct l as [|? l]; [discriminate|]). destruct l; [reflexivity|discriminate]. Qed.
Lemma six (l : list Z) : length l = 6%nat -> l = [nth 0 l 0; nth 1 l 0; nth 2 l 0; nth 3 l 0; nth 4 l 0; nth 5 l 0].
Proof. intro L. do 6 (destruct l as [|? l]; [discriminate|]). destruct l; [reflexivity|discriminate]. Qed.

Lemma bits_mod256 x i : 0 <= i < 8 -> Z.testbit (x mod 256) i = Z.testbit x i.
Proof. intro. change 256 with (2 ^ 8). apply Z.mod_pow2_bits_low. lia. Qed.
Ltac bitgo :=
  rewrite ?bits_mod256 by lia;
  repeat first [rewrite Z.lor_spec | rewrite Z.land_spec | rewrite Z.lnot_spec by lia | rewrite Z.shiftl_spec by lia | rewrite Z.shiftr_spec by lia];
  repeat match goal with |- context [Z.testbit ?c ?i] => is_var c; let i' := eval compute in i in progress change (Z.testbit c i) with (Z.testbit c i') end;
  rewrite ?Z.testbit_neg_r by lia;
  repeat match goal with H : byte ?c |- context [Z.testbit ?c ?i] => rewrite (tb_high c i H) by lia end;
  repeat match goal with |- context [Z.testbit ?c ?i] => is_var c; generalize (Z.testbit c i); intros [|] end; reflexivity.
Lemma rol_ok k : length k = 7%nat -> length (rol k) = 7%nat /\ bytes (rol k) /\
  bits (rol k) = rotl_bits 1 (firstn 28 (bits k)) ++ rotl_bits 1 (skipn 28 (bits k)).
Proof.
  intro L. split; [reflexivity|]. split.
  { unfold rol. repeat (apply Forall_cons; [apply Z.mod_pos_bound; reflexivity|]). constructor. }
  rewrite (seven k L) at 2 3. unfold rol. cbn [Nat.add].
  generalize (nth 0 k 0) (nth 1 k 0) (nth 2 k 0) (nth 3 k 0) (nth 4 k 0) (nth 5 k 0) (nth 6 k 0). clear. intros b0 b1 b2 b3 b4 b5 b6.
  unfold bits. cbn [map concat]. rewrite !byte_bits_tb. unfold rotl_bits. cbn [map app firstn skipn].
  repeat (apply (f_equal2 (@cons bool)); [bitgo|]). reflexivity.
Qed.
Lemma ror_ok k : length k = 7%nat -> bytes k -> length (ror k) = 7%nat /\ bytes (ror k) /\
  bits (ror k) = rotr1 (firstn 28 (bits k)) ++ rotr1 (skipn 28 (bits k)).
Proof.
  intros L Hb. split; [reflexivity|]. split.
  { unfold ror. repeat (apply Forall_cons; [apply Z.mod_pos_bound; reflexivity|]). constructor. }
  assert (N : forall i, byte (nth i k 0)) by (intro i; apply (Forall_nth_d byte); auto; unfold byte; lia).
  rewrite (seven k L) at 2 3. unfold ror. cbn [Nat.sub].
  generalize (N 0%nat) (N 1%nat) (N 2%nat) (N 3%nat) (N 4%nat) (N 5%nat) (N 6%nat).
  generalize (nth 0 k 0) (nth 1 k 0) (nth 2 k 0) (nth 3 k 0) (nth 4 k 0) (nth 5 k 0) (nth 6 k 0). clear. intros b0 b1 b2 b3 b4 b5 b6 H0 H1 H2 H3 H4 H5 H6.
  unfold bits. cbn [map concat]. rewrite !byte_bits_tb. unfold rotr1. cbn [map app firstn skipn last removelast].
  repeat (apply (f_equal2 (@cons bool)); [bitgo|]). reflexivity.
Qed.

(** the two 28-bit halves after n left shifts *)
Definition halves (C D : list bool) (n : nat) : list bool := rotl_bits n C ++ rotl_bits n D.
Lemma rotl_len n l : length (rotl_bits n l) = length l.
Proof. unfold rotl_bits. rewrite app_length, Nat.add_comm, <- app_length, firstn_skipn. reflexivity. Qed.
Lemma rotl_S n l : (n < length l)%nat -> rotl_bits 1 (rotl_bits n l) = rotl_bits (S n) l.
Proof.
  intro H. unfold rotl_bits. rewrite (skipn_nth false n l) by auto. pose proof (firstn_snoc false n 0 l H) as Q. change (skipn 0 l) with l in Q. rewrite Q. cbn [Nat.add]. clear Q. cbn [app skipn firstn]. rewrite <- app_assoc. reflexivity.
Qed.
Lemma rotr1_snoc l x : rotr1 (l ++ [x]) = x :: l.
Proof. unfold rotr1. rewrite last_last, removelast_last. reflexivity. Qed.
Lemma rotr_S n l : (n < length l)%nat -> rotr1 (rotl_bits (S n) l) = rotl_bits n l.
Proof.
  intro H. unfold rotl_bits. rewrite (skipn_nth false n l) by auto. pose proof (firstn_snoc false n 0 l H) as Q. change (skipn 0 l) with l in Q. rewrite Q. cbn [Nat.add]. clear Q. rewrite app_assoc, rotr1_snoc. reflexivity.
Qed.
Lemma rotl_all l : rotl_bits (length l) l = l.
Proof. unfold rotl_bits. rewrite skipn_all, firstn_all. reflexivity. Qed.
Lemma rol_halves k C D n : length C = 28%nat -> length D = 28%nat -> (n < 28)%nat -> length k = 7%nat -> bits k = halves C D n ->
  bits (rol k) = halves C D (S n).
Proof.
  intros LC LD Hn L E. destruct (rol_ok k L) as (_ & _ & ->). rewrite E. unfold halves.
  rewrite firstn_exact, skipn_exact by (rewrite rotl_len; auto). rewrite !rotl_S by lia. reflexivity.
Qed.
Lemma ror_halves k C D n : length C = 28%nat -> length D = 28%nat -> (n < 28)%nat -> length k = 7%nat -> bytes k -> bits k = halves C D (S n) ->
  bits (ror k) = halves C D n.
Proof.
  intros LC LD Hn L Hb E. destruct (ror_ok k L Hb) as (_ & _ & ->). rewrite E. unfold halves.
  rewrite firstn_exact, skipn_exact by (rewrite rotl_len; auto). rewrite !rotr_S by lia. reflexivity.
Qed.

(** * S boxes *)
Definition beqb (a b : list bool) : bool := if list_eq_dec Bool.bool_dec a b then true else false.
Lemma beqb_eq a b : beqb a b = true -> a = b. Proof. unfold beqb. destruct list_eq_dec; congruence. Qed.
Definition sb (k : nat) (i : Z) : Z := nth (Z.to_nat i) (nth k des_sbox []) 0.
Definition nib (v : Z) : list bool := skipn 4 (byte_bits v).
Definition all6 : list (list bool) :=
  let b := [false; true] in
  flat_map (fun x1 => flat_map (fun x2 => flat_map (fun x3 => flat_map (fun x4 => flat_map (fun x5 => map (fun x6 => [x1; x2; x3; x4; x5; x6]) b) b) b) b) b) b.
Lemma all6_in a b c d e f : In [a; b; c; d; e; f] all6.
Proof.
  assert (B : forall x : bool, In x [false; true]) by (intros [|]; cbn; auto). unfold all6.
  repeat (apply in_flat_map; eexists; split; [apply B|]). apply in_map_iff. exists f. split; [reflexivity|apply B].
Qed.
Lemma sb_ok k a b c d e f : (k < 8)%nat -> let x := [a; b; c; d; e; f] in
  0 <= sb k (bits_val x) < 16 /\ nib (sb k (bits_val x)) = S_out k x.
Proof.
  intros Hk x.
  assert (C : forallb (fun k => forallb (fun x => (0 <=? sb k (bits_val x)) && (sb k (bits_val x) <? 16) && beqb (nib (sb k (bits_val x))) (S_out k x))%bool all6) (seq 0 8) = true) by (vm_compute; reflexivity).
  assert (I : In k (seq 0 8)) by (apply in_seq; lia).
  pose proof (proj1 (forallb_forall _ _) C k I) as E. cbv beta in E.
  pose proof (proj1 (forallb_forall _ _) E x (all6_in a b c d e f)) as F. cbv beta in F.
  apply andb_true_iff in F. destruct F as [F G]. apply andb_true_iff in F. destruct F as [F1 F2]. apply beqb_eq in G. split; [lia|exact G].
Qed.
Lemma two_nib u v : 0 <= u < 16 -> 0 <= v < 16 -> byte (Z.lor (Z.shiftl u 4 mod 256) v) /\ byte_bits (Z.lor (Z.shiftl u 4 mod 256) v) = nib u ++ nib v.
Proof.
  intros Hu Hv.
  assert (C : forallb (fun u => forallb (fun v => let z := Z.lor (Z.shiftl (Z.of_nat u) 4 mod 256) (Z.of_nat v) in
     ((0 <=? z) && (z <? 256) && beqb (byte_bits z) (nib (Z.of_nat u) ++ nib (Z.of_nat v)))%bool) (seq 0 16)) (seq 0 16) = true) by (vm_compute; reflexivity).
  assert (I : In (Z.to_nat u) (seq 0 16)) by (apply in_seq; lia). assert (J : In (Z.to_nat v) (seq 0 16)) by (apply in_seq; lia).
  pose proof (proj1 (forallb_forall _ _) C _ I) as E. cbv beta in E. pose proof (proj1 (forallb_forall _ _) E _ J) as F. cbv beta zeta in F. rewrite !Z2Nat.id in F by lia.
  apply andb_true_iff in F. destruct F as [F G]. apply andb_true_iff in F. destruct F as [F1 F2]. apply beqb_eq in G. split; [unfold byte; lia|exact G].
Qed.
Definition bv := fun (a : Z) (l : list Z) => map (Z.testbit a) l.
Lemma idx1 a : byte a -> Z.shiftr (Z.land a 0xFC) 2 = bits_val (bv a [7; 6; 5; 4; 3; 2]).
Proof. intro H. apply Z.eqb_eq. refine (byte_check (fun a => Z.shiftr (Z.land a 0xFC) 2 =? bits_val (bv a [7; 6; 5; 4; 3; 2])) _ _ H). vm_compute. reflexivity. Qed.
Lemma idx4 a : byte a -> Z.land a 0x3F = bits_val (bv a [5; 4; 3; 2; 1; 0]).
Proof. intro H. apply Z.eqb_eq. refine (byte_check (fun a => Z.land a 0x3F =? bits_val (bv a [5; 4; 3; 2; 1; 0])) _ _ H). vm_compute. reflexivity. Qed.
Lemma idx2 a b : byte a -> byte b -> Z.lor (Z.shiftl (Z.land a 0x03) 4) (Z.shiftr (Z.land b 0xF0) 4) = bits_val (bv a [1; 0] ++ bv b [7; 6; 5; 4]).
Proof.
  intros H K. apply Z.eqb_eq.
  refine (byte_check (fun b => Z.lor (Z.shiftl (Z.land a 0x03) 4) (Z.shiftr (Z.land b 0xF0) 4) =? bits_val (bv a [1; 0] ++ bv b [7; 6; 5; 4])) _ _ K).
  refine (byte_check (fun a => forallb (fun b => Z.lor (Z.shiftl (Z.land a 0x03) 4) (Z.shiftr (Z.land b 0xF0) 4) =? bits_val (bv a [1; 0] ++ bv b [7; 6; 5; 4])) _) _ _ H).
  vm_compute. reflexivity.
Qed.
Lemma idx3 a b : byte a -> byte b -> Z.lor (Z.shiftl (Z.land a 0x0F) 2) (Z.shiftr (Z.land b 0xC0) 6) = bits_val (bv a [3; 2; 1; 0] ++ bv b [7; 6]).
Proof.
  intros H K. apply Z.eqb_eq.
  refine (byte_check (fun b => Z.lor (Z.shiftl (Z.land a 0x0F) 2) (Z.shiftr (Z.land b 0xC0) 6) =? bits_val (bv a [3; 2; 1; 0] ++ bv b [7; 6])) _ _ K).
  refine (byte_check (fun a => forallb (fun b => Z.lor (Z.shiftl (Z.land a 0x0F) 2) (Z.shiftr (Z.land b 0xC0) 6) =? bits_val (bv a [3; 2; 1; 0] ++ bv b [7; 6])) _) _ _ H).
  vm_compute. reflexivity.
Qed.
Lemma des_sub_eq b0 b1 b2 b3 b4 b5 : des_sub [b0; b1; b2; b3; b4; b5] =
  [Z.lor (Z.shiftl (sb 0 (Z.shiftr (Z.land b0 0xFC) 2)) 4 mod 256) (sb 1 (Z.lor (Z.shiftl (Z.land b0 0x03) 4) (Z.shiftr (Z.land b1 0xF0) 4)));
   Z.lor (Z.shiftl (sb 2 (Z.lor (Z.shiftl (Z.land b1 0x0F) 2) (Z.shiftr (Z.land b2 0xC0) 6))) 4 mod 256) (sb 3 (Z.land b2 0x3F));
   Z.lor (Z.shiftl (sb 4 (Z.shiftr (Z.land b3 0xFC) 2)) 4 mod 256) (sb 5 (Z.lor (Z.shiftl (Z.land b3 0x03) 4) (Z.shiftr (Z.land b4 0xF0) 4)));
   Z.lor (Z.shiftl (sb 6 (Z.lor (Z.shiftl (Z.land b4 0x0F) 2) (Z.shiftr (Z.land b5 0xC0) 6))) 4 mod 256) (sb 7 (Z.land b5 0x3F))].
Proof. reflexivity. Qed.
Lemma des_sub_ok e : length e = 6%nat -> bytes e -> length (des_sub e) = 4%nat /\ bytes (des_sub e) /\
  bits (des_sub e) = concat (map (fun k => S_out k (firstn 6 (skipn (6 * k) (bits e)))) (seq 0 8)).
Proof.
  intros L Hb. split; [reflexivity|].
  do 6 (destruct e as [|? e]; [discriminate|]). destruct e; [|discriminate]. clear L.
  repeat match goal with H : Forall byte (_ :: _) |- _ => inversion H; clear H; subst | H : bytes _ |- _ => unfold bytes in H end.
  rename z into b0, z0 into b1, z1 into b2, z2 into b3, z3 into b4, z4 into b5.
  rewrite des_sub_eq. rewrite !idx1, !idx2, !idx3, !idx4 by assumption.
  assert (E : bits [b0; b1; b2; b3; b4; b5] = bv b0 [7;6;5;4;3;2] ++ (bv b0 [1;0] ++ bv b1 [7;6;5;4]) ++ (bv b1 [3;2;1;0] ++ bv b2 [7;6]) ++ bv b2 [5;4;3;2;1;0]
     ++ bv b3 [7;6;5;4;3;2] ++ (bv b3 [1;0] ++ bv b4 [7;6;5;4]) ++ (bv b4 [3;2;1;0] ++ bv b5 [7;6]) ++ bv b5 [5;4;3;2;1;0]).
  { unfold bits. cbn [map concat]. rewrite !byte_bits_tb. reflexivity. }
  rewrite E. clear E.
  set (x0 := bv b0 [7;6;5;4;3;2]). set (x1 := bv b0 [1;0] ++ bv b1 [7;6;5;4]). set (x2 := bv b1 [3;2;1;0] ++ bv b2 [7;6]). set (x3 := bv b2 [5;4;3;2;1;0]).
  set (x4 := bv b3 [7;6;5;4;3;2]). set (x5 := bv b3 [1;0] ++ bv b4 [7;6;5;4]). set (x6 := bv b4 [3;2;1;0] ++ bv b5 [7;6]). set (x7 := bv b5 [5;4;3;2;1;0]).
  assert (S0 : 0 <= sb 0 (bits_val x0) < 16 /\ nib (sb 0 (bits_val x0)) = S_out 0 x0) by (apply sb_ok; lia).
  assert (S1 : 0 <= sb 1 (bits_val x1) < 16 /\ nib (sb 1 (bits_val x1)) = S_out 1 x1) by (apply sb_ok; lia).
  assert (S2 : 0 <= sb 2 (bits_val x2) < 16 /\ nib (sb 2 (bits_val x2)) = S_out 2 x2) by (apply sb_ok; lia).
  assert (S3 : 0 <= sb 3 (bits_val x3) < 16 /\ nib (sb 3 (bits_val x3)) = S_out 3 x3) by (apply sb_ok; lia).
  assert (S4 : 0 <= sb 4 (bits_val x4) < 16 /\ nib (sb 4 (bits_val x4)) = S_out 4 x4) by (apply sb_ok; lia).
  assert (S5 : 0 <= sb 5 (bits_val x5) < 16 /\ nib (sb 5 (bits_val x5)) = S_out 5 x5) by (apply sb_ok; lia).
  assert (S6 : 0 <= sb 6 (bits_val x6) < 16 /\ nib (sb 6 (bits_val x6)) = S_out 6 x6) by (apply sb_ok; lia).
  assert (S7 : 0 <= sb 7 (bits_val x7) < 16 /\ nib (sb 7 (bits_val x7)) = S_out 7 x7) by (apply sb_ok; lia).
  assert (L : length x0 = 6%nat /\ length x1 = 6%nat /\ length x2 = 6%nat /\ length x3 = 6%nat /\ length x4 = 6%nat /\ length x5 = 6%nat /\ length x6 = 6%nat /\ length x7 = 6%nat) by (repeat split).
  clearbody x0 x1 x2 x3 x4 x5 x6 x7. destruct L as (L0 & L1 & L2 & L3 & L4 & L5 & L6 & L7).
  destruct S0 as [R0 S0], S1 as [R1 S1], S2 as [R2 S2], S3 as [R3 S3], S4 as [R4 S4], S5 as [R5 S5], S6 as [R6 S6], S7 as [R7 S7].
  destruct (two_nib _ _ R0 R1) as [T0 U0]. destruct (two_nib _ _ R2 R3) as [T1 U1]. destruct (two_nib _ _ R4 R5) as [T2 U2]. destruct (two_nib _ _ R6 R7) as [T3 U3].
  split; [repeat (apply Forall_cons; [assumption|]); constructor|].
  unfold bits. cbn [map concat]. rewrite U0, U1, U2, U3, S0, S1, S2, S3, S4, S5, S6, S7.
  assert (P : map (fun k => firstn 6 (skipn (6 * k) (x0 ++ x1 ++ x2 ++ x3 ++ x4 ++ x5 ++ x6 ++ x7))) (seq 0 8) = [x0; x1; x2; x3; x4; x5; x6; x7]).
  { clear - L0 L1 L2 L3 L4 L5 L6 L7.
    assert (Q : forall l (a b c d e f : bool) t, skipn (6 + l) ([a; b; c; d; e; f] ++ t) = skipn l t) by reflexivity.
    destruct x0 as [|? [|? [|? [|? [|? [|? [|]]]]]]]; try discriminate. destruct x1 as [|? [|? [|? [|? [|? [|? [|]]]]]]]; try discriminate.
    destruct x2 as [|? [|? [|? [|? [|? [|? [|]]]]]]]; try discriminate. destruct x3 as [|? [|? [|? [|? [|? [|? [|]]]]]]]; try discriminate.
    destruct x4 as [|? [|? [|? [|? [|? [|? [|]]]]]]]; try discriminate. destruct x5 as [|? [|? [|? [|? [|? [|? [|]]]]]]]; try discriminate.
    destruct x6 as [|? [|? [|? [|? [|? [|? [|]]]]]]]; try discriminate. destruct x7 as [|? [|? [|? [|? [|? [|? [|]]]]]]]; try discriminate.
    reflexivity. }
  set (f := fun k => firstn 6 (skipn (6 * k) _)) in P.
  change (map (fun k => S_out k _) (seq 0 8)) with (map (fun p => S_out (fst p) (snd p)) (combine (seq 0 8) (map f (seq 0 8)))).
  rewrite P. cbn [seq combine map concat fst snd]. rewrite <- !app_assoc. reflexivity.
Qed.
