(** The rounds of AES on states of 16 bytes. *)
From Verif Require Import Base Bits BytesSpec Bytes Lists Poly2Spec Poly2 GcmMul AesTables AesModel AesSpec Aes.

(** * States of 16 bytes *)
Local Opaque gmul sbox inv_sbox.
Definition st (s : list Z) : Prop := length s = 16%nat /\ bytes s.
Ltac list16 s L := do 16 (destruct s as [|? s]; [discriminate L|]); destruct s; [|discriminate L].
Lemma bytes_cons a l : bytes (a :: l) -> byte a /\ bytes l.
Proof. intro H. inversion H; auto. Qed.
Ltac unbytes := repeat match goal with Q : bytes (_ :: _) |- _ => apply bytes_cons in Q; destruct Q end.
Ltac st16 s H := let L := fresh "L" in let Bs := fresh "Bs" in destruct H as [L Bs]; list16 s L; clear L; unbytes.
Ltac mkbytes := repeat (apply Forall_cons; [assumption|]); apply Forall_nil.
Lemma chunks_4_16 a0 a1 a2 a3 a4 a5 a6 a7 a8 a9 a10 a11 a12 a13 a14 a15 :
  chunks 4 [a0; a1; a2; a3; a4; a5; a6; a7; a8; a9; a10; a11; a12; a13; a14; a15] =
  [[a0; a1; a2; a3]; [a4; a5; a6; a7]; [a8; a9; a10; a11]; [a12; a13; a14; a15]].
Proof. reflexivity. Qed.
Lemma mix16 k1 k2 k3 k4 a0 a1 a2 a3 a4 a5 a6 a7 a8 a9 a10 a11 a12 a13 a14 a15 :
  concat (map (mix_column k1 k2 k3 k4) (chunks 4 [a0; a1; a2; a3; a4; a5; a6; a7; a8; a9; a10; a11; a12; a13; a14; a15])) =
  mix_column k1 k2 k3 k4 [a0; a1; a2; a3] ++ mix_column k1 k2 k3 k4 [a4; a5; a6; a7] ++
  mix_column k1 k2 k3 k4 [a8; a9; a10; a11] ++ mix_column k1 k2 k3 k4 [a12; a13; a14; a15].
Proof. rewrite chunks_4_16. cbn [map concat]. rewrite app_nil_r. reflexivity. Qed.
Lemma st_xorl a b : st a -> st b -> st (xorl a b).
Proof. intros [A1 A2] [B1 B2]. split; [rewrite xorl_length_eq; congruence|apply xorl_bytes; auto]. Qed.
Lemma xor4_byte a b c d : byte a -> byte b -> byte c -> byte d -> byte (xor4 a b c d).
Proof. intros. unfold xor4. repeat apply byte_lxor; auto. Qed.
Definition consts := [1; 2; 3; 0x9; 0xb; 0xd; 0xe].
Lemma mix_column_bytes k1 k2 k3 k4 a b c d : In k1 consts -> In k2 consts -> In k3 consts -> In k4 consts ->
  byte a -> byte b -> byte c -> byte d -> bytes (mix_column k1 k2 k3 k4 [a; b; c; d]).
Proof.
  intros. cbn [mix_column]. repeat (apply Forall_cons; [apply xor4_byte; apply gmul_byte; assumption|]). apply Forall_nil.
Qed.
Ltac inc := vm_compute; tauto.
Lemma st_mix s : st s -> st (mix_columns s).
Proof.
  intro H. st16 s H. unfold mix_columns. rewrite mix16. split; [reflexivity|].
  rewrite !bytes_app. repeat split; apply mix_column_bytes; assumption || inc.
Qed.
Lemma st_inv_mix s : st s -> st (inv_mix_columns s).
Proof.
  intro H. st16 s H. unfold inv_mix_columns. rewrite mix16. split; [reflexivity|].
  rewrite !bytes_app. repeat split; apply mix_column_bytes; assumption || inc.
Qed.
Lemma shift_rows_16 a0 a1 a2 a3 a4 a5 a6 a7 a8 a9 a10 a11 a12 a13 a14 a15 :
  shift_rows [a0; a1; a2; a3; a4; a5; a6; a7; a8; a9; a10; a11; a12; a13; a14; a15] =
  [a0; a5; a10; a15; a4; a9; a14; a3; a8; a13; a2; a7; a12; a1; a6; a11].
Proof. reflexivity. Qed.
Lemma inv_shift_rows_16 a0 a1 a2 a3 a4 a5 a6 a7 a8 a9 a10 a11 a12 a13 a14 a15 :
  inv_shift_rows [a0; a1; a2; a3; a4; a5; a6; a7; a8; a9; a10; a11; a12; a13; a14; a15] =
  [a0; a13; a10; a7; a4; a1; a14; a11; a8; a5; a2; a15; a12; a9; a6; a3].
Proof. reflexivity. Qed.
Lemma st_shift s : st s -> st (shift_rows s).
Proof. intro H. st16 s H. rewrite shift_rows_16. split; [reflexivity|]. mkbytes. Qed.
Lemma st_inv_shift s : st s -> st (inv_shift_rows s).
Proof. intro H. st16 s H. rewrite inv_shift_rows_16. split; [reflexivity|]. mkbytes. Qed.
Lemma st_map f s : (forall b, byte b -> byte (f b)) -> st s -> st (map f s).
Proof.
  intros F [L Bs]. split; [rewrite map_length; auto|]. apply Forall_forall. intros x Hx. apply in_map_iff in Hx as (y & <- & Hy).
  apply F. exact (proj1 (Forall_forall _ _) Bs y Hy).
Qed.
Lemma st_sub s : st s -> st (sub_bytes s). Proof. apply st_map, sbox_byte. Qed.
Lemma st_inv_sub s : st s -> st (inv_sub_bytes s). Proof. apply st_map, inv_sbox_byte. Qed.
Lemma inv_mix_mix s : st s -> inv_mix_columns (mix_columns s) = s.
Proof.
  intro H. st16 s H. unfold mix_columns. rewrite mix16. cbn [mix_column app]. unfold inv_mix_columns. rewrite mix16.
  pose proof inv_mix_mix_col as M. cbn [mix_column] in M |- *. rewrite !M by assumption. reflexivity.
Qed.
Lemma inv_shift_shift s : length s = 16%nat -> inv_shift_rows (shift_rows s) = s.
Proof. intro L. list16 s L. reflexivity. Qed.
Lemma inv_sub_sub s : bytes s -> inv_sub_bytes (sub_bytes s) = s.
Proof.
  intro H. unfold inv_sub_bytes, sub_bytes. rewrite map_map. rewrite <- (map_id s) at 2. apply map_ext_in.
  intros x Hx. apply inv_sbox_sbox. exact (proj1 (Forall_forall _ _) H x Hx).
Qed.
Lemma inv_mix_xorl s k : length s = 16%nat -> length k = 16%nat -> inv_mix_columns (xorl s k) = xorl (inv_mix_columns s) (inv_mix_columns k).
Proof.
  intros Ls Lk. list16 s Ls. list16 k Lk. cbn [xorl]. unfold inv_mix_columns. rewrite !mix16. cbn [mix_column app xorl].
  rewrite !gmul_lxor, !xor4_lxor. reflexivity.
Qed.

(** * InvCipher inverts Cipher *)
Definition erounds (m : list (list Z)) (s : list Z) : list Z :=
  fold_left (fun s k => add_round_key k (mix_columns (shift_rows (sub_bytes s)))) m s.
Definition drounds (m : list (list Z)) (s : list Z) : list Z :=
  fold_left (fun s k => inv_mix_columns (add_round_key k (inv_sub_bytes (inv_shift_rows s)))) m s.
Lemma rounds_snoc m : forall kl s, rounds (m ++ [kl]) s = add_round_key kl (shift_rows (sub_bytes (erounds m s))).
Proof.
  induction m as [|k m IH]; intros kl s; [reflexivity|]. cbn [app erounds fold_left].
  change (rounds (k :: m ++ [kl]) s) with (match m ++ [kl] with [] => add_round_key k (shift_rows (sub_bytes s)) | _ => rounds (m ++ [kl]) (add_round_key k (mix_columns (shift_rows (sub_bytes s)))) end).
  rewrite <- IH. destruct m; reflexivity.
Qed.
Lemma inv_rounds_snoc m : forall kl s, inv_rounds (m ++ [kl]) s = add_round_key kl (inv_sub_bytes (inv_shift_rows (drounds m s))).
Proof.
  induction m as [|k m IH]; intros kl s; [reflexivity|]. cbn [app drounds fold_left].
  change (inv_rounds (k :: m ++ [kl]) s) with (match m ++ [kl] with [] => add_round_key k (inv_sub_bytes (inv_shift_rows s)) | _ => inv_rounds (m ++ [kl]) (inv_mix_columns (add_round_key k (inv_sub_bytes (inv_shift_rows s)))) end).
  rewrite <- IH. destruct m; reflexivity.
Qed.
Lemma st_erounds m : forall s, Forall st m -> st s -> st (erounds m s).
Proof.
  induction m as [|k m IH]; intros s Hm Hs; [auto|]. inversion Hm; subst. cbn [erounds fold_left]. apply IH; auto.
  apply st_xorl; auto using st_mix, st_shift, st_sub.
Qed.
Lemma st_drounds m : forall s, Forall st m -> st s -> st (drounds m s).
Proof.
  induction m as [|k m IH]; intros s Hm Hs; [auto|]. inversion Hm; subst. cbn [drounds fold_left]. apply IH; auto.
  apply st_inv_mix, st_xorl; auto using st_inv_shift, st_inv_sub.
Qed.
Lemma xorl_self_inv s k : st s -> st k -> xorl (xorl s k) k = s.
Proof. intros [A _] [C _]. apply xorl_invol. lia. Qed.
Lemma drounds_erounds m : forall s, Forall st m -> st s -> drounds (rev m) (shift_rows (sub_bytes (erounds m s))) = shift_rows (sub_bytes s).
Proof.
  induction m as [|k m IH] using rev_ind; intros s Hm Hs; [reflexivity|].
  apply Forall_app in Hm as [Hm Hk]. inversion Hk; subst.
  rewrite rev_app_distr. cbn [rev app]. unfold erounds. rewrite fold_left_app. cbn [fold_left]. fold (erounds m s).
  unfold drounds. cbn [fold_left]. fold (drounds (rev m)).
  pose proof (st_erounds m s Hm Hs) as He.
  set (e := shift_rows (sub_bytes (erounds m s))). assert (Se : st e) by (apply st_shift, st_sub; auto).
  assert (Sx : st (add_round_key k (mix_columns e))) by (apply st_xorl; auto using st_mix).
  rewrite inv_shift_shift by apply (st_sub _ Sx). rewrite inv_sub_sub by apply Sx.
  unfold add_round_key. rewrite xorl_self_inv by (auto using st_mix). rewrite inv_mix_mix by auto. apply IH; auto.
Qed.
Lemma inv_rounds_rounds k0 m kl s : st k0 -> Forall st m -> st kl -> st s ->
  inv_rounds (rev m ++ [k0]) (add_round_key kl (rounds (m ++ [kl]) (add_round_key k0 s))) = s.
Proof.
  intros H0 Hm Hl Hs. rewrite rounds_snoc, inv_rounds_snoc.
  assert (S0 : st (add_round_key k0 s)) by (apply st_xorl; auto).
  pose proof (st_erounds m _ Hm S0) as He.
  unfold add_round_key in *. rewrite xorl_self_inv by (auto using st_shift, st_sub).
  rewrite drounds_erounds by auto. rewrite inv_shift_shift by apply (st_sub _ S0). rewrite inv_sub_sub by apply S0.
  apply xorl_self_inv; auto.
Qed.

(** * Words *)
Lemma B_lxor a b : B (Z.lxor a b) = xorl (B a) (B b).
Proof.
  unfold B. generalize 4%nat as n. intro n. revert a b. induction n as [|n IH]; intros a b; [reflexivity|].
  cbn [le_bytes xorl]. rewrite <- IH.
  assert (E1 : Z.lxor a b mod 256 = Z.lxor (a mod 256) (b mod 256)).
  { change 256 with (2 ^ 8). rewrite <- !Z.land_ones by lia. apply Z.bits_inj'. intros i Hi.
    rewrite ?Z.land_spec, ?Z.lxor_spec, ?Z.land_spec. destruct (Z.testbit a i), (Z.testbit b i), (Z.testbit (Z.ones 8) i); reflexivity. }
  assert (E2 : Z.lxor a b / 256 = Z.lxor (a / 256) (b / 256)).
  { change 256 with (2 ^ 8). rewrite <- !Z.shiftr_div_pow2 by lia. apply Z.shiftr_lxor. }
  rewrite E1, E2. reflexivity.
Qed.
Lemma B_I w : B w = [I0 w; I1 w; I2 w; I3 w].
Proof.
  unfold B, I0, I1, I2, I3. cbn [le_bytes]. change 255 with (Z.ones 8). rewrite !Z.land_ones, !Z.shiftr_div_pow2 by lia.
  rewrite !Z.div_div by lia. reflexivity.
Qed.
Lemma I_byte w : byte (I0 w) /\ byte (I1 w) /\ byte (I2 w) /\ byte (I3 w).
Proof.
  unfold I0, I1, I2, I3, byte. change 255 with (Z.ones 8). rewrite !Z.land_ones by lia. change (2 ^ 8) with 256.
  repeat split; apply Z.mod_pos_bound; lia.
Qed.
Lemma write32le_B w : write32le w = B w.
Proof. rewrite B_I. reflexivity. Qed.
Lemma B_bytes4 a b c d : byte a -> byte b -> byte c -> byte d -> B (a + 256 * b + 65536 * c + 16777216 * d) = [a; b; c; d].
Proof.
  intros. unfold B, byte in *. cbn [le_bytes].
  f_equal; [|f_equal; [|f_equal; [|f_equal]]]; Z.div_mod_to_equations; lia.
Qed.
Lemma lor4 a b c d : byte a -> byte b -> byte c -> byte d ->
  Z.lor (Z.lor (Z.lor (Z.shiftl d 24) (Z.shiftl c 16)) (Z.shiftl b 8)) a = a + 256 * b + 65536 * c + 16777216 * d.
Proof.
  unfold byte. intros. rewrite !Z.shiftl_mul_pow2 by lia.
  rewrite (lor_shifted_small d (c * 2 ^ 16) 24) by lia.
  replace (d * 2 ^ 24 + c * 2 ^ 16) with ((d * 2 ^ 8 + c) * 2 ^ 16) by lia.
  rewrite lor_shifted_small by lia.
  replace ((d * 2 ^ 8 + c) * 2 ^ 16 + b * 2 ^ 8) with (((d * 2 ^ 8 + c) * 2 ^ 8 + b) * 2 ^ 8) by lia.
  rewrite lor_shifted_small by lia. lia.
Qed.
Lemma B_read l o : bytes l -> B (read32le l o) = [nth o l 0; nth (o + 1) l 0; nth (o + 2) l 0; nth (o + 3) l 0].
Proof.
  intro H. assert (G : forall i, byte (nth i l 0)) by (intro i; apply Forall_nth_d; auto; unfold byte; lia).
  unfold read32le. rewrite lor4 by auto. apply B_bytes4; auto.
Qed.
Lemma B_final t a b c d : (forall x, byte x -> byte (tab t x)) ->
  B (aes_final t a b c d) = [tab t (I0 a); tab t (I1 b); tab t (I2 c); tab t (I3 d)].
Proof.
  intro H. destruct (I_byte a) as (A & _). destruct (I_byte b) as (_ & C & _). destruct (I_byte c) as (_ & _ & D & _). destruct (I_byte d) as (_ & _ & _ & E).
  unfold aes_final. rewrite <- (B_bytes4 (tab t (I0 a)) (tab t (I1 b)) (tab t (I2 c)) (tab t (I3 d))) by auto. f_equal.
  rewrite <- lor4 by auto. rewrite <- !Z.lor_assoc. rewrite Z.lor_comm. rewrite <- !Z.lor_assoc.
  rewrite (Z.lor_comm (Z.shiftl (tab t (I1 b)) 8)). rewrite (Z.lor_comm _ (tab t (I0 a))).
  apply Z.bits_inj'. intros i Hi. rewrite !Z.lor_spec.
  destruct (Z.testbit (tab t (I0 a)) i), (Z.testbit (Z.shiftl (tab t (I1 b)) 8) i), (Z.testbit (Z.shiftl (tab t (I2 c)) 16) i), (Z.testbit (Z.shiftl (tab t (I3 d)) 24) i); reflexivity.
Qed.
Lemma fs_byte x : byte x -> byte (tab aes_fsbox x). Proof. intro. rewrite sbox_tab by auto. apply sbox_byte; auto. Qed.
Lemma rs_byte x : byte x -> byte (tab aes_rsbox x). Proof. intro. rewrite rsbox_tab by auto. apply inv_sbox_byte; auto. Qed.
Definition S4 (w : Z * Z * Z * Z) : list Z := let '(w0, w1, w2, w3) := w in B w0 ++ B w1 ++ B w2 ++ B w3.
Ltac ibytes := repeat match goal with w : Z |- _ => let H := fresh "IB" in pose proof (I_byte w) as H; destruct H as (? & ? & ? & ?); revert w end; intros.
Lemma fround_ok w0 w1 w2 w3 : S4 (fround w0 w1 w2 w3) = mix_columns (shift_rows (sub_bytes (S4 (w0, w1, w2, w3)))).
Proof.
  unfold fround, S4, aes_round. rewrite !B_lxor.
  destruct (I_byte w0) as (? & ? & ? & ?). destruct (I_byte w1) as (? & ? & ? & ?). destruct (I_byte w2) as (? & ? & ? & ?). destruct (I_byte w3) as (? & ? & ? & ?).
  rewrite !ftab0_ok, !ftab1_ok, !ftab2_ok, !ftab3_ok by assumption. rewrite (B_I w0), (B_I w1), (B_I w2), (B_I w3). cbn [app].
  unfold sub_bytes. cbn [map]. rewrite shift_rows_16. unfold mix_columns. rewrite mix16. reflexivity.
Qed.
Lemma ffinal_ok w0 w1 w2 w3 : S4 (ffinal w0 w1 w2 w3) = shift_rows (sub_bytes (S4 (w0, w1, w2, w3))).
Proof.
  unfold ffinal, S4. rewrite !B_final by apply fs_byte.
  destruct (I_byte w0) as (? & ? & ? & ?). destruct (I_byte w1) as (? & ? & ? & ?). destruct (I_byte w2) as (? & ? & ? & ?). destruct (I_byte w3) as (? & ? & ? & ?).
  rewrite !sbox_tab by assumption. rewrite !B_I. cbn [app]. unfold sub_bytes. cbn [map]. rewrite shift_rows_16. reflexivity.
Qed.
Lemma rround_ok w0 w1 w2 w3 : S4 (rround w0 w1 w2 w3) = inv_mix_columns (inv_sub_bytes (inv_shift_rows (S4 (w0, w1, w2, w3)))).
Proof.
  unfold rround, S4, aes_round. rewrite !B_lxor.
  destruct (I_byte w0) as (? & ? & ? & ?). destruct (I_byte w1) as (? & ? & ? & ?). destruct (I_byte w2) as (? & ? & ? & ?). destruct (I_byte w3) as (? & ? & ? & ?).
  rewrite !rtab0_ok, !rtab1_ok, !rtab2_ok, !rtab3_ok by assumption. rewrite (B_I w0), (B_I w1), (B_I w2), (B_I w3). cbn [app].
  rewrite inv_shift_rows_16. unfold inv_sub_bytes. cbn [map]. unfold inv_mix_columns. rewrite mix16. reflexivity.
Qed.
Lemma rfinal_ok w0 w1 w2 w3 : S4 (rfinal w0 w1 w2 w3) = inv_sub_bytes (inv_shift_rows (S4 (w0, w1, w2, w3))).
Proof.
  unfold rfinal, S4. rewrite !B_final by apply rs_byte.
  destruct (I_byte w0) as (? & ? & ? & ?). destruct (I_byte w1) as (? & ? & ? & ?). destruct (I_byte w2) as (? & ? & ? & ?). destruct (I_byte w3) as (? & ? & ? & ?).
  rewrite !rsbox_tab by assumption. rewrite !B_I. cbn [app]. rewrite inv_shift_rows_16. unfold inv_sub_bytes. cbn [map]. reflexivity.
Qed.
Lemma B_mix w : B (aes_mix w) = mix_column 0xe 0xb 0xd 0x9 (B w).
Proof.
  unfold aes_mix. rewrite !B_lxor. rewrite !Z.shiftr_shiftr by lia. fold (I0 w) (I1 w). change (8 + 8) with 16. change (16 + 8) with 24. fold (I2 w) (I3 w).
  destruct (I_byte w) as (? & ? & ? & ?). rewrite mtab0_ok, mtab1_ok, mtab2_ok, mtab3_ok by assumption. rewrite (B_I w). reflexivity.
Qed.
