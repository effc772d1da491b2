(** The AES cipher inverts the inverse cipher. *)
From Verif Require Import Base Lists AesSpec AesModel Modes Aes Aes2 Aes3 Aes4.
Transparent gmul.
Lemma mix_col_pieces x : byte x ->
  xor4 (gmul 2 (gmul 0xe x)) (gmul 3 (gmul 0x9 x)) (gmul 1 (gmul 0xd x)) (gmul 1 (gmul 0xb x)) = x /\
  xor4 (gmul 2 (gmul 0xb x)) (gmul 3 (gmul 0xe x)) (gmul 1 (gmul 0x9 x)) (gmul 1 (gmul 0xd x)) = 0 /\
  xor4 (gmul 2 (gmul 0xd x)) (gmul 3 (gmul 0xb x)) (gmul 1 (gmul 0xe x)) (gmul 1 (gmul 0x9 x)) = 0 /\
  xor4 (gmul 2 (gmul 0x9 x)) (gmul 3 (gmul 0xd x)) (gmul 1 (gmul 0xb x)) (gmul 1 (gmul 0xe x)) = 0.
Proof.
  intro H. repeat split; apply Z.eqb_eq.
  - refine (byte_check (fun x => xor4 (gmul 2 (gmul 0xe x)) (gmul 3 (gmul 0x9 x)) (gmul 1 (gmul 0xd x)) (gmul 1 (gmul 0xb x)) =? x) _ _ H). vm_compute. reflexivity.
  - refine (byte_check (fun x => xor4 (gmul 2 (gmul 0xb x)) (gmul 3 (gmul 0xe x)) (gmul 1 (gmul 0x9 x)) (gmul 1 (gmul 0xd x)) =? 0) _ _ H). vm_compute. reflexivity.
  - refine (byte_check (fun x => xor4 (gmul 2 (gmul 0xd x)) (gmul 3 (gmul 0xb x)) (gmul 1 (gmul 0xe x)) (gmul 1 (gmul 0x9 x)) =? 0) _ _ H). vm_compute. reflexivity.
  - refine (byte_check (fun x => xor4 (gmul 2 (gmul 0x9 x)) (gmul 3 (gmul 0xd x)) (gmul 1 (gmul 0xb x)) (gmul 1 (gmul 0xe x)) =? 0) _ _ H). vm_compute. reflexivity.
Qed.
Opaque gmul.
Lemma mix_inv_mix_col x y z t : byte x -> byte y -> byte z -> byte t ->
  mix_column 2 3 1 1 (mix_column 0xe 0xb 0xd 0x9 [x; y; z; t]) = [x; y; z; t].
Proof.
  intros Hx Hy Hz Ht. cbn [mix_column].
  destruct (mix_col_pieces x Hx) as (X0 & X1 & X2 & X3). destruct (mix_col_pieces y Hy) as (Y0 & Y1 & Y2 & Y3).
  destruct (mix_col_pieces z Hz) as (Z0 & Z1 & Z2 & Z3). destruct (mix_col_pieces t Ht) as (T0 & T1 & T2 & T3).
  rewrite !gmul_xor4.
  assert (P2 : forall a b c d, xor4 a b c d = xor4 c d a b) by (intros; rewrite xor4_perm, xor4_perm; reflexivity).
  assert (P3 : forall a b c d, xor4 a b c d = xor4 d a b c) by (intros; rewrite P2, xor4_perm; reflexivity).
  f_equal; [|f_equal; [|f_equal; [|f_equal]]]; rewrite xor4_transpose.
  - rewrite X0, Y1, Z2, T3. apply xor4_0.
  - rewrite (xor4_perm _ _ _ (gmul 1 (gmul 0xb x))), (xor4_perm _ _ _ (gmul 1 (gmul 0xd y))), (xor4_perm _ _ _ (gmul 1 (gmul 9 z))), (xor4_perm _ _ _ (gmul 1 (gmul 0xe t))).
    rewrite X3, Y0, Z1, T2. apply xor4_0.
  - rewrite (P2 _ _ _ (gmul 3 (gmul 0xb x))), (P2 _ _ _ (gmul 3 (gmul 0xd y))), (P2 _ _ _ (gmul 3 (gmul 9 z))), (P2 _ _ _ (gmul 3 (gmul 0xe t))).
    rewrite X2, Y3, Z0, T1. apply xor4_0.
  - rewrite (P3 _ _ _ (gmul 2 (gmul 0xb x))), (P3 _ _ _ (gmul 2 (gmul 0xd y))), (P3 _ _ _ (gmul 2 (gmul 9 z))), (P3 _ _ _ (gmul 2 (gmul 0xe t))).
    rewrite X1, Y2, Z3, T0. apply xor4_0.
Qed.
Lemma mix_inv_mix s : st s -> mix_columns (inv_mix_columns s) = s.
Proof.
  intro H. st16 s H. unfold inv_mix_columns. rewrite mix16. cbn [mix_column app]. unfold mix_columns. rewrite mix16.
  pose proof mix_inv_mix_col as M. cbn [mix_column] in M |- *. rewrite !M by assumption. reflexivity.
Qed.
Lemma shift_inv_shift s : length s = 16%nat -> shift_rows (inv_shift_rows s) = s.
Proof. intro L. list16 s L. reflexivity. Qed.
Lemma sub_inv_sub s : bytes s -> sub_bytes (inv_sub_bytes s) = s.
Proof.
  intro H. unfold inv_sub_bytes, sub_bytes. rewrite map_map. rewrite <- (map_id s) at 2. apply map_ext_in.
  intros x Hx. apply sbox_inv_sbox. exact (proj1 (Forall_forall _ _) H x Hx).
Qed.
Lemma erounds_drounds m : forall s, Forall st m -> st s -> erounds (rev m) (inv_sub_bytes (inv_shift_rows (drounds m s))) = inv_sub_bytes (inv_shift_rows s).
Proof.
  induction m as [|k m IH] using rev_ind; intros s Hm Hs; [reflexivity|].
  apply Forall_app in Hm as [Hm Hk]. inversion Hk; subst.
  rewrite rev_app_distr. cbn [rev app]. unfold drounds. rewrite fold_left_app. cbn [fold_left]. fold (drounds m s).
  unfold erounds. cbn [fold_left]. fold (erounds (rev m)).
  pose proof (st_drounds m s Hm Hs) as He.
  set (e := inv_sub_bytes (inv_shift_rows (drounds m s))). assert (Se : st e) by (apply st_inv_sub, st_inv_shift; auto).
  assert (Sx : st (inv_mix_columns (add_round_key k e))) by (apply st_inv_mix, st_xorl; auto).
  rewrite sub_inv_sub by apply (st_inv_shift _ Sx). rewrite shift_inv_shift by apply Sx.
  rewrite mix_inv_mix by (apply st_xorl; auto). unfold add_round_key. rewrite xorl_self_inv by auto. apply IH; auto.
Qed.
Lemma rounds_inv_rounds k0 m kl s : st k0 -> Forall st m -> st kl -> st s ->
  rounds (m ++ [kl]) (add_round_key k0 (inv_rounds (rev m ++ [k0]) (add_round_key kl s))) = s.
Proof.
  intros H0 Hm Hl Hs. rewrite rounds_snoc, inv_rounds_snoc.
  assert (S0 : st (add_round_key kl s)) by (apply st_xorl; auto).
  pose proof (st_drounds (rev m) _ (Forall_rev Hm) S0) as He.
  unfold add_round_key in *. rewrite xorl_self_inv by (auto using st_inv_shift, st_inv_sub).
  rewrite <- (rev_involutive m) at 1. rewrite erounds_drounds by (auto using Forall_rev). rewrite sub_inv_sub by apply (st_inv_shift _ S0). rewrite shift_inv_shift by apply S0.
  apply xorl_self_inv; auto.
Qed.
Lemma fips_onto ks n k src : (1 <= n)%nat -> map (rkey ks) (seq 0 (n + 1)) = round_keys k -> st src -> fips_cipher k (fips_inv_cipher k src) = src.
Proof.
  intros Hn E Hs. unfold fips_inv_cipher, fips_cipher. rewrite <- E. rewrite seq_split by auto. cbn [map rev]. rewrite map_app, rev_app_distr. cbn [map rev app].
  apply rounds_inv_rounds; auto using st_rkey.
  apply Forall_forall. intros x Hx. apply in_map_iff in Hx as (i & <- & _). apply st_rkey.
Qed.
Lemma aes_cipher_onto key : bytes key -> (16 <= length key)%nat -> let k := firstn (aes_size (length key)) key in
  (forall b, length b = 16%nat -> bytes b -> bytes (fips_inv_cipher k b)) /\
  (forall b, length b = 16%nat -> bytes b -> fips_cipher k (fips_inv_cipher k b) = b).
Proof.
  intros Hk L k. destruct (key_set_ok key Hk L) as (Hn & ks & E & Lk & R). cbv zeta in *. fold k in R. revert Hn Lk R. set (r := (_ / 4 + 6)%nat). intros Hn Lk R.
  assert (N1 : (1 <= r)%nat) by (destruct Hn as [<-|[<-|[<-|[]]]]; lia).
  split; intros b Lb Hb.
  - apply (st_fips_inv ks r); auto. split; auto.
  - apply (fips_onto ks r); auto. split; auto.
Qed.
