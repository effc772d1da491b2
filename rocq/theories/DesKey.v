(** Proofs for C94. *)
From Verif Require Import Base Bits BytesSpec Bytes Lists ModesModel ModesSpec Modes DesTables DesModel DesSpec Des Des2 Des3 DesKeySpec.

(** * Parity bits *)
Definition no_parity (tab : list nat) : bool := forallb (fun t => negb (Nat.eqb ((t - 1) mod 8) 7)) tab.
Lemma nth_half k j : (j mod 8 <> 7)%nat -> nth j (bits k) false = Z.testbit (nth (j / 8) (map (fun b => b / 2) k) 0) (6 - Z.of_nat (j mod 8)).
Proof.
  intros H. rewrite nth_bits. pose proof (Nat.mod_upper_bound j 8 ltac:(lia)).
  change 0 with ((fun b => b / 2) 0) at 2. rewrite map_nth. change 2 with (2 ^ 1). rewrite Z.div_pow2_bits by lia. f_equal. lia.
Qed.
Lemma select_half tab k k' : no_parity tab = true -> same_but_parity k k' -> select tab (bits k) = select tab (bits k').
Proof.
  intros T S. unfold select. apply map_ext_in. intros t I. unfold no_parity in T. rewrite forallb_forall in T. specialize (T t I).
  apply Bool.negb_true_iff, Nat.eqb_neq in T. rewrite !nth_half by exact T. rewrite S. reflexivity.
Qed.
Lemma subkeys_half k k' : same_but_parity k k' -> subkeys (bits k) = subkeys (bits k').
Proof. intros S. unfold subkeys. rewrite (select_half PC1_C k k'), (select_half PC1_D k k') by (auto; reflexivity). reflexivity. Qed.
Lemma block_eq (e e' : bool) k k' b : is_block b -> (if e then subkeys (bits k) else rev (subkeys (bits k))) = (if e' then subkeys (bits k') else rev (subkeys (bits k'))) ->
  des_block e k b = des_block e' k' b.
Proof.
  intros [L B] S. destruct (des_block_ok e k b L B) as (A1 & A2 & A3). destruct (des_block_ok e' k' b L B) as (B1 & B2 & B3).
  apply bits_inj; auto. rewrite A3, B3, S. reflexivity.
Qed.
Lemma block_half e k k' b : is_block b -> same_but_parity k k' -> des_block e k b = des_block e k' b.
Proof. intros H S. apply block_eq; [exact H|]. rewrite (subkeys_half k k' S). reflexivity. Qed.
Lemma half_len k k' : same_but_parity k k' -> length k = length k'.
Proof. intros S. apply (f_equal (@length Z)) in S. rewrite !map_length in S. exact S. Qed.
Lemma key_at_half k k' i : same_but_parity k k' -> same_but_parity (key_at (des_key_set k) i) (key_at (des_key_set k') i).
Proof.
  intros S. unfold key_at, des_key_set. cbn [des_key]. rewrite (half_len k k' S). unfold same_but_parity in *.
  rewrite <- !firstn_map, <- !skipn_map, !map_app, <- !firstn_map, S. reflexivity.
Qed.
Lemma parity key key' l : same_but_parity key key' -> whole 8 l -> bytes l ->
  des_encrypt (des_key_set key) l = des_encrypt (des_key_set key') l /\ des_decrypt (des_key_set key) l = des_decrypt (des_key_set key') l.
Proof.
  intros S W B. rewrite !des_encrypt_eq, !des_decrypt_eq by exact W.
  assert (K : des_keylen (des_key_set key) = des_keylen (des_key_set key')) by (unfold des_key_set; cbn [des_keylen]; rewrite (half_len _ _ S); reflexivity).
  split; f_equal; apply ecb_ext; auto; try lia; intros b Lb Bb; assert (P : is_block b) by (split; assumption).
  - unfold desE. rewrite K. cbv zeta. rewrite (block_half true _ _ b P (key_at_half _ _ 0 S)). destruct (Nat.eqb _ 24); [|reflexivity].
    rewrite (block_half false _ _ _ (block_block _ _ _ P) (key_at_half _ _ 1 S)). apply block_half; [apply block_block, block_block, P|apply key_at_half, S].
  - unfold desD. rewrite K. destruct (Nat.eqb _ 24); [|apply block_half; [exact P|apply key_at_half, S]].
    rewrite (block_half false _ _ b P (key_at_half _ _ 2 S)). rewrite (block_half true _ _ _ (block_block _ _ _ P) (key_at_half _ _ 1 S)).
    apply block_half; [apply block_block, block_block, P|apply key_at_half, S].
Qed.

(** * Equal keys in triple DES *)
Local Opaque des_block DES DES_inv.
Lemma DES_DES_inv k b : is_block b -> DES k (DES_inv k b) = b.
Proof. intros P. rewrite <- (dec_is_DES k b P), <- enc_is_DES by (apply block_block, P). apply (dec_enc_block false). exact P. Qed.
Lemma DES_inv_DES k b : is_block b -> DES_inv k (DES k b) = b.
Proof. intros P. rewrite <- (enc_is_DES k b P), <- dec_is_DES by (apply block_block, P). apply (dec_enc_block true). exact P. Qed.
Lemma equal_keys k k' rest l : length k = 8%nat -> length k' = 8%nat -> whole 8 l -> bytes l ->
  des_encrypt (des_key_set (k ++ k ++ k' ++ rest)) l = des_encrypt (des_key_set k') l /\
  des_decrypt (des_key_set (k ++ k ++ k' ++ rest)) l = des_decrypt (des_key_set k') l /\
  des_encrypt (des_key_set (k' ++ k ++ k ++ rest)) l = des_encrypt (des_key_set k') l /\
  des_decrypt (des_key_set (k' ++ k ++ k ++ rest)) l = des_decrypt (des_key_set k') l.
Proof.
  intros L L' W B. destruct (des_triple k k k' rest l L L L' W B) as [T1 T2]. destruct (des_triple k' k k rest l L' L L W B) as [T3 T4]. destruct (des_single8 k' l L' W B) as [S1 S2].
  rewrite T1, T2, T3, T4, S1, S2. repeat split; f_equal; apply ecb_ext; auto; try lia; intros b Lb Bb; assert (P : is_block b) by (split; assumption); unfold TDEA, TDEA_inv.
  - rewrite DES_inv_DES by exact P. reflexivity.
  - rewrite DES_inv_DES by (apply DES_inv_block, P). reflexivity.
  - rewrite DES_DES_inv by (apply DES_block, P). reflexivity.
  - rewrite DES_DES_inv by exact P. reflexivity.
Qed.

(** * Weak keys *)
Lemma twice k k' b : is_block b -> subkeys (bits k') = rev (subkeys (bits k)) -> DES k' (DES k b) = b.
Proof.
  intros P S. rewrite <- (enc_is_DES k b P), <- enc_is_DES by (apply block_block, P). rewrite (block_eq true false k' k) by (try exact S; apply block_block, P).
  apply (dec_enc_block true). exact P.
Qed.
Definition undo_keys (k k' : list Z) : bool := if list_eq_dec (list_eq_dec Bool.bool_dec) (subkeys (bits k')) (rev (subkeys (bits k))) then true else false.
Lemma undo_ok k k' : undo_keys k k' = true -> subkeys (bits k') = rev (subkeys (bits k)).
Proof. unfold undo_keys. destruct list_eq_dec; [auto|discriminate]. Qed.
Lemma undo_msg k k' l : length k = 8%nat -> length k' = 8%nat -> undo_keys k k' = true -> whole 8 l -> bytes l ->
  exists m, des_encrypt (des_key_set k) l = Ok m /\ des_encrypt (des_key_set k') m = Ok l.
Proof.
  intros L L' U W B. destruct (des_round_trip (des_key_set k) l W B) as (m & M & Lm & Bm & D). exists m. split; [exact M|].
  assert (Wm : whole 8 m) by (eapply whole_len; [exact Lm|exact W]).
  rewrite <- D. rewrite des_encrypt_eq, des_decrypt_eq by exact Wm. f_equal. apply ecb_ext; auto; try lia. intros b Lb Bb. assert (P : is_block b) by (split; assumption).
  assert (E8 : Nat.eqb 8 24 = false) by reflexivity.
  assert (K : forall x, length x = 8%nat -> key_at (des_key_set x) 0 = x).
  { intros x Lx. rewrite key_at_pad by lia. change (8 * 0)%nat with 0%nat. cbn [skipn]. apply firstn_exact. exact Lx. }
  unfold desE, desD. cbn [des_keylen des_key_set]. rewrite L, L'. change (Nat.eqb (Nat.min 8 24) 24) with false. cbv zeta. rewrite !K by assumption.
  apply block_eq; [exact P|]. apply undo_ok. exact U.
Qed.
Lemma weak_ok : forallb (fun k => Nat.eqb (length k) 8 && undo_keys k k)%bool weak_keys = true.
Proof. vm_compute. reflexivity. Qed.
Lemma semi_ok : forallb (fun p => Nat.eqb (length (fst p)) 8 && Nat.eqb (length (snd p)) 8 && undo_keys (fst p) (snd p) && undo_keys (snd p) (fst p))%bool semi_weak_keys = true.
Proof. vm_compute. reflexivity. Qed.
Lemma weak_msg k l : In k weak_keys -> whole 8 l -> bytes l -> exists m, des_encrypt (des_key_set k) l = Ok m /\ des_encrypt (des_key_set k) m = Ok l.
Proof.
  intros I. pose proof weak_ok as H. rewrite forallb_forall in H. specialize (H k I). apply andb_prop in H. destruct H as [L U]. apply Nat.eqb_eq in L. apply undo_msg; assumption.
Qed.
Lemma semi_msg k k' l : In (k, k') semi_weak_keys -> whole 8 l -> bytes l ->
  (exists m, des_encrypt (des_key_set k) l = Ok m /\ des_encrypt (des_key_set k') m = Ok l) /\
  (exists m, des_encrypt (des_key_set k') l = Ok m /\ des_encrypt (des_key_set k) m = Ok l).
Proof.
  intros I W B. pose proof semi_ok as H. rewrite forallb_forall in H. specialize (H (k, k') I). cbn [fst snd] in H.
  apply andb_prop in H. destruct H as [H U2]. apply andb_prop in H. destruct H as [H U1]. apply andb_prop in H. destruct H as [L L']. apply Nat.eqb_eq in L, L'.
  split; apply undo_msg; assumption.
Qed.

(** * Complement *)
Lemma flip_bit b i : byte b -> 0 <= i < 8 -> Z.testbit (255 - b) i = negb (Z.testbit b i).
Proof.
  intros B I. replace (255 - b) with (Z.lnot b mod 256).
  - rewrite bits_mod256 by exact I. apply Z.lnot_spec. lia.
  - unfold Z.lnot. unfold byte in B. symmetry. apply Z.mod_unique with (-1); lia.
Qed.
Lemma flip_byte b : byte b -> byte_bits (255 - b) = map negb (byte_bits b).
Proof.
  intros B. rewrite !byte_bits_tb, map_map. apply map_ext_in. intros i Hi. apply flip_bit; [exact B|]. cbn [In] in Hi. lia.
Qed.
Lemma flip_bits l : bytes l -> bits (flip l) = map negb (bits l).
Proof.
  induction 1 as [|b l B H IH]; [reflexivity|]. unfold bits, flip in *. cbn [map concat]. rewrite map_app, IH, flip_byte by exact B. reflexivity.
Qed.
Lemma flip_block b : is_block b -> is_block (flip b).
Proof.
  intros [L B]. split; [unfold flip; rewrite map_length; exact L|]. unfold flip. apply Forall_map. eapply Forall_impl; [|exact B]. unfold byte. intros x Hx. lia.
Qed.
Definition in_range (n : nat) (tab : list nat) : bool := forallb (fun t => Nat.ltb (t - 1) n) tab.
Lemma select_neg tab l : in_range (length l) tab = true -> select tab (map negb l) = map negb (select tab l).
Proof.
  intros T. unfold select. rewrite map_map. apply map_ext_in. intros t I. unfold in_range in T. rewrite forallb_forall in T. specialize (T t I). apply Nat.ltb_lt in T.
  rewrite (nth_indep (map negb l) false (negb false)) by (rewrite map_length; exact T). apply map_nth.
Qed.
Lemma rotl_neg n l : rotl_bits n (map negb l) = map negb (rotl_bits n l).
Proof. unfold rotl_bits. rewrite map_app, firstn_map, skipn_map. reflexivity. Qed.
Lemma subkeys_neg k : length k = 64%nat -> subkeys (map negb k) = map (map negb) (subkeys k).
Proof.
  intros L. unfold subkeys. rewrite map_map. apply map_ext. intros i. cbv zeta.
  rewrite !(select_neg _ k) by (rewrite L; reflexivity). rewrite !rotl_neg, <- map_app. apply select_neg. rewrite app_length, !rotl_len, !select_len. reflexivity.
Qed.
Lemma xorb_neg2 a : forall b, xorb_list (map negb a) (map negb b) = xorb_list a b.
Proof.
  induction a as [|x a IH]; intros [|y b]; try reflexivity. unfold xorb_list in *. cbn [map combine fst snd]. rewrite IH. f_equal. destruct x, y; reflexivity.
Qed.
Lemma xorb_neg1 a : forall b, xorb_list (map negb a) b = map negb (xorb_list a b).
Proof.
  induction a as [|x a IH]; intros [|y b]; try reflexivity. unfold xorb_list in *. cbn [map combine fst snd]. rewrite IH. f_equal. destruct x, y; reflexivity.
Qed.
Lemma f_neg R K : length R = 32%nat -> f_des (map negb R) (map negb K) = f_des R K.
Proof. intros L. unfold f_des. rewrite (select_neg E_tab R) by (rewrite L; reflexivity). rewrite xorb_neg2. reflexivity. Qed.
Lemma feistel_neg Ks : forall L R, length L = 32%nat -> length R = 32%nat ->
  feistel (map (map negb) Ks) (map negb L, map negb R) = (map negb (fst (feistel Ks (L, R))), map negb (snd (feistel Ks (L, R)))).
Proof.
  unfold feistel. induction Ks as [|K Ks IH]; intros L R H1 H2; [reflexivity|]. cbn [map fold_left]. rewrite f_neg, xorb_neg1 by exact H2. apply IH; [exact H2|].
  rewrite xorb_list_len by (rewrite f_len; exact H1). exact H1.
Qed.
Lemma core_neg Ks b : length b = 64%nat -> des_core (map (map negb) Ks) (map negb b) = map negb (des_core Ks b).
Proof.
  intros Lb. unfold des_core. rewrite (select_neg IP b) by (rewrite Lb; reflexivity). set (x := select IP b). assert (Lx : length x = 64%nat) by reflexivity.
  assert (L1 : length (firstn 32 x) = 32%nat) by (rewrite firstn_length; lia). assert (L2 : length (skipn 32 x) = 32%nat) by (rewrite skipn_length; lia).
  rewrite firstn_map, skipn_map. rewrite feistel_neg by assumption. pose proof (feistel_len Ks _ _ L1 L2) as FL.
  destruct (feistel Ks (firstn 32 x, skipn 32 x)) as [L R]. cbn [fst snd] in *. destruct FL as [F1 F2]. rewrite <- map_app. apply select_neg. rewrite app_length, F1, F2. reflexivity.
Qed.
Lemma block_neg e k b : is_block k -> is_block b -> des_block e (flip k) (flip b) = flip (des_block e k b).
Proof.
  intros [Lk Bk] P. pose proof (flip_block b P) as Pf. destruct P as [L B], Pf as [Lf Bf].
  destruct (des_block_ok e k b L B) as (A1 & A2 & A3). destruct (des_block_ok e (flip k) (flip b) Lf Bf) as (B1 & B2 & B3).
  apply bits_inj; [exact B2|apply flip_block; split; assumption|]. rewrite B3, !flip_bits by assumption. rewrite A3. rewrite subkeys_neg by (rewrite bits_len, Lk; reflexivity).
  rewrite <- map_rev. rewrite <- core_neg by (rewrite bits_len, L; reflexivity). destruct e; reflexivity.
Qed.
Lemma flip_chunks : forall l, whole 8 l -> forall f g, (forall b, length b = 8%nat -> bytes b -> f (flip b) = flip (g b)) -> bytes l -> ecb 8 f (flip l) = flip (ecb 8 g l).
Proof.
  intros l [k Hk]. revert l Hk. induction k as [|k IH]; intros l Hk f g H B.
  - assert (l = []) by (apply length_zero_iff_nil; lia). subst l. reflexivity.
  - rewrite <- (firstn_skipn 8 l) in *. rewrite app_length in Hk.
    assert (L8 : length (firstn 8 l) = 8%nat) by (rewrite firstn_length, skipn_length in *; lia).
    apply bytes_app in B. destruct B as [B1 B2]. unfold flip at 1. rewrite map_app. fold (flip (firstn 8 l)) (flip (skipn 8 l)).
    rewrite !ecb_cons by (unfold flip; rewrite ?map_length; lia). unfold flip at 3. rewrite map_app. fold (flip (g (firstn 8 l))) (flip (ecb 8 g (skipn 8 l))).
    rewrite H by assumption. f_equal. apply IH; try assumption. lia.
Qed.
Lemma flip_whole l : whole 8 l -> whole 8 (flip l).
Proof. intros W. eapply whole_len; [|exact W]. unfold flip. apply map_length. Qed.
Lemma flip_app a b : flip (a ++ b) = flip a ++ flip b. Proof. apply map_app. Qed.
Lemma flip_bytes l : bytes l -> bytes (flip l).
Proof. intros B. unfold flip. apply Forall_map. eapply Forall_impl; [|exact B]. unfold byte. intros x Hx. lia. Qed.
Lemma DES_neg k b : is_block k -> is_block b -> DES (flip k) (flip b) = flip (DES k b).
Proof. intros K P. rewrite <- (enc_is_DES k b P), <- enc_is_DES by (apply flip_block, P). apply block_neg; assumption. Qed.
Lemma DES_inv_neg k b : is_block k -> is_block b -> DES_inv (flip k) (flip b) = flip (DES_inv k b).
Proof. intros K P. rewrite <- (dec_is_DES k b P), <- dec_is_DES by (apply flip_block, P). apply block_neg; assumption. Qed.
Lemma complement8 key l : length key = 8%nat -> bytes key -> whole 8 l -> bytes l ->
  exists m, des_encrypt (des_key_set key) l = Ok m /\ des_encrypt (des_key_set (flip key)) (flip l) = Ok (flip m).
Proof.
  intros L K W B. destruct (des_single8 key l L W B) as [S _]. assert (Lf : length (flip key) = 8%nat) by (unfold flip; rewrite map_length; exact L).
  destruct (des_single8 (flip key) (flip l) Lf (flip_whole l W) (flip_bytes l B)) as [F _]. rewrite S, F. eexists. split; [reflexivity|]. f_equal.
  apply flip_chunks; auto. intros b Lb Bb. apply DES_neg; split; assumption.
Qed.
Lemma complement24 k1 k2 k3 l : length k1 = 8%nat -> length k2 = 8%nat -> length k3 = 8%nat -> bytes k1 -> bytes k2 -> bytes k3 -> whole 8 l -> bytes l ->
  exists m, des_encrypt (des_key_set (k1 ++ k2 ++ k3)) l = Ok m /\ des_encrypt (des_key_set (flip (k1 ++ k2 ++ k3))) (flip l) = Ok (flip m).
Proof.
  intros L1 L2 L3 B1 B2 B3 W B. destruct (des_triple k1 k2 k3 [] l L1 L2 L3 W B) as [S _]. rewrite app_nil_r in S. rewrite S.
  assert (FL : forall k, length k = 8%nat -> length (flip k) = 8%nat) by (intros k Lk; unfold flip; rewrite map_length; exact Lk).
  destruct (des_triple (flip k1) (flip k2) (flip k3) [] (flip l) (FL _ L1) (FL _ L2) (FL _ L3) (flip_whole l W) (flip_bytes l B)) as [F _]. rewrite app_nil_r in F.
  rewrite !flip_app, F. eexists. split; [reflexivity|]. f_equal.
  apply flip_chunks; auto. intros b Lb Bb. assert (P : is_block b) by (split; assumption). unfold TDEA.
  rewrite DES_neg by (try exact P; split; assumption). rewrite DES_inv_neg by (try (apply DES_block, P); split; assumption). apply DES_neg; [split; assumption|]. apply DES_inv_block, DES_block, P.
Qed.
