(** DES: sixteen rounds, one block against FIPS 46-3, and inversion. *)
From Verif Require Import Base Bits BytesSpec Bytes Lists Aes DesTables DesModel DesSpec Des Des2 HashBase HashComp ModesModel ModesSpec Modes.

Definition shift_sum (i : nat) : nat := fold_right Nat.add 0%nat (firstn i shifts).
Lemma shift_sum_le i : (i <= 16)%nat -> (shift_sum i <= 28)%nat.
Proof. intro H. do 17 (destruct i as [|i]; [vm_compute; lia|]). lia. Qed.
Lemma shift_sum_S i : (i < 16)%nat -> shift_sum (S i) = (shift_sum i + nth i shifts 0)%nat.
Proof. intro H. do 16 (destruct i as [|i]; [reflexivity|]). lia. Qed.
Lemma shift_enc i : (i < 16)%nat -> nth i shifts 0%nat = if (Nat.leb i 1 || Nat.eqb i 8 || Nat.eqb i 15)%bool then 1%nat else 2%nat.
Proof. intro H. do 16 (destruct i as [|i]; [reflexivity|]). lia. Qed.
Lemma shift_dec i : (i < 16)%nat -> nth (15 - i) shifts 0%nat = if (Nat.leb 14 i || Nat.eqb i 7 || Nat.eqb i 0)%bool then 1%nat else 2%nat.
Proof. intro H. do 16 (destruct i as [|i]; [reflexivity|]). lia. Qed.

(** * One round *)
Lemma xorl_len4 a b : length a = 4%nat -> length b = 4%nat -> length (xorl a b) = 4%nat.
Proof. intros. rewrite xorl_length. lia. Qed.
Definition split_ok (blk : list Z) (L R : list bool) : Prop :=
  length blk = 8%nat /\ bytes blk /\ bits (firstn 4 blk) = L /\ bits (skipn 4 blk) = R.
Lemma round_data blk L R k sk : split_ok blk L R -> length k = 7%nat -> bits k = sk ->
  split_ok (skipn 4 blk ++ xorl (firstn 4 blk) (permute (des_sub (xorl (permute (skipn 4 blk) des_exp 6) (permute k des_pc2 6))) des_p 4))
    R (xorb_list L (f_des R (select PC2 sk))).
Proof.
  intros (Lb & Hb & EL & ER) Lk Ek.
  assert (L4 : length (firstn 4 blk) = 4%nat) by (rewrite firstn_length; lia).
  assert (K4 : length (skipn 4 blk) = 4%nat) by (rewrite skipn_length; lia).
  destruct (permute_ok (skipn 4 blk) des_exp 6 eq_refl) as (A1 & A2 & A3).
  destruct (permute_ok k des_pc2 6 eq_refl) as (B1 & B2 & B3).
  set (x := xorl _ _) in |- *. 
  assert (Lx : length (xorl (permute (skipn 4 blk) des_exp 6) (permute k des_pc2 6)) = 6%nat) by (rewrite xorl_length, A1, B1; reflexivity).
  assert (Bx : bytes (xorl (permute (skipn 4 blk) des_exp 6) (permute k des_pc2 6))) by (apply xorl_bytes; auto).
  assert (Ex : bits (xorl (permute (skipn 4 blk) des_exp 6) (permute k des_pc2 6)) = xorb_list (select PC2 sk) (select E_tab R)).
  { rewrite bits_xorl by lia. rewrite A3, B3, ER, Ek. apply xorb_list_comm. }
  subst x. set (x := xorl (permute (skipn 4 blk) des_exp 6) (permute k des_pc2 6)) in *. clearbody x.
  destruct (des_sub_ok x Lx Bx) as (C1 & C2 & C3).
  destruct (permute_ok (des_sub x) des_p 4 eq_refl) as (D1 & D2 & D3). rewrite C3, Ex in D3.
  set (p := permute (des_sub x) des_p 4) in *. clearbody p.
  split; [rewrite app_length, xorl_len4; auto; lia|]. split; [apply Forall_app; split; [apply bytes_skipn; auto|apply xorl_bytes; [apply bytes_firstn; auto|auto]]|].
  rewrite firstn_exact, skipn_exact by auto. split; [auto|]. rewrite bits_xorl by lia. rewrite EL, D3. reflexivity.
Qed.

Lemma enc_rounds C D n : length C = 28%nat -> length D = 28%nat -> forall i blk k L R, (i + n = 16)%nat ->
  split_ok blk L R -> length k = 7%nat -> bytes k -> bits k = halves C D (shift_sum i) ->
  let s := fold_left (des_round true) (seq i n) (blk, k) in
  let t := feistel (map (fun j => select PC2 (halves C D (shift_sum (S j)))) (seq i n)) (L, R) in
  split_ok (fst s) (fst t) (snd t).
Proof.
  intros LC LD. induction n as [|n IH]; intros i blk k L R Hi HS Lk Bk Ek; [exact HS|].
  cbn [seq map]. unfold feistel. cbn [fold_left]. pose proof (shift_sum_le (S i) ltac:(lia)) as SL. rewrite shift_sum_S in * by lia. rewrite shift_enc in * by lia.
  assert (K : let k' := (let k := rol k in if (Nat.leb i 1 || Nat.eqb i 8 || Nat.eqb i 15)%bool then k else rol k) in
    length k' = 7%nat /\ bytes k' /\ bits k' = halves C D (shift_sum (S i))).
  { rewrite shift_sum_S by lia. rewrite shift_enc by lia. destruct (rol_ok k Lk) as (P1 & P2 & _).
    assert (P3 : bits (rol k) = halves C D (S (shift_sum i))) by (apply rol_halves; auto; destruct (_ || _)%bool in SL; lia).
    destruct (_ || _)%bool; cbv zeta.
    - split; [auto|]. split; [auto|]. rewrite P3. f_equal. lia.
    - destruct (rol_ok _ P1) as (Q1 & Q2 & _). split; [auto|]. split; [auto|]. rewrite (rol_halves _ C D (S (shift_sum i))); auto; [f_equal; lia|lia]. }
  unfold des_round at 2. cbv zeta in K |- *. set (k' := if (_ || _)%bool then rol k else _) in *. clearbody k'. destruct K as (K1 & K2 & K3).
  rewrite <- shift_enc, <- shift_sum_S by lia.
  apply (IH (S i)); auto; [lia|]. apply round_data; auto.
Qed.
Lemma dec_rounds C D n : length C = 28%nat -> length D = 28%nat -> forall i blk k L R, (i + n = 16)%nat ->
  split_ok blk L R -> length k = 7%nat -> bytes k -> bits k = halves C D (shift_sum (16 - i)) ->
  let s := fold_left (des_round false) (seq i n) (blk, k) in
  let t := feistel (map (fun j => select PC2 (halves C D (shift_sum (16 - j)))) (seq i n)) (L, R) in
  split_ok (fst s) (fst t) (snd t).
Proof.
  intros LC LD. induction n as [|n IH]; intros i blk k L R Hi HS Lk Bk Ek; [exact HS|].
  cbn [seq map]. unfold feistel. cbn [fold_left]. pose proof (shift_sum_le (16 - i) ltac:(lia)) as SL.
  assert (SE : shift_sum (16 - i) = (shift_sum (16 - S i) + nth (15 - i) shifts 0)%nat).
  { replace (16 - i)%nat with (S (15 - i)) by lia. rewrite shift_sum_S by lia. replace (16 - S i)%nat with (15 - i)%nat by lia. reflexivity. }
  rewrite shift_dec in SE by lia.
  assert (K : let k' := (let k := ror k in if (Nat.leb 14 i || Nat.eqb i 7 || Nat.eqb i 0)%bool then k else ror k) in
    length k' = 7%nat /\ bytes k' /\ bits k' = halves C D (shift_sum (16 - S i))).
  { destruct (ror_ok k Lk Bk) as (P1 & P2 & _). destruct (_ || _)%bool; cbv zeta.
    - split; [auto|]. split; [auto|]. apply ror_halves; auto; [lia|]. rewrite Ek. f_equal. lia.
    - destruct (ror_ok _ P1 P2) as (Q1 & Q2 & _). split; [auto|]. split; [auto|]. apply ror_halves; auto; [lia|].
      apply ror_halves; auto; [lia|]. rewrite Ek. f_equal. lia. }
  unfold des_round at 2. cbv zeta in K |- *. set (k' := if (_ || _)%bool then ror k else _) in *. clearbody k'. destruct K as (K1 & K2 & K3).
  apply (IH (S i)); auto; [lia|]. apply round_data; auto.
Qed.

(** * One block *)
Lemma des_block_ok (e : bool) key src : length src = 8%nat -> bytes src ->
  length (des_block e key src) = 8%nat /\ bytes (des_block e key src) /\
  bits (des_block e key src) = des_core (if e then subkeys (bits key) else rev (subkeys (bits key))) (bits src).
Proof.
  intros Ls Hs. unfold des_block.
  destruct (permute_ok src des_ip 8 eq_refl) as (A1 & A2 & A3).
  destruct (permute_ok key des_pc1 7 eq_refl) as (B1 & B2 & B3).
  set (C := select PC1_C (bits key)). set (D := select PC1_D (bits key)).
  assert (LC : length C = 28%nat) by reflexivity. assert (LD : length D = 28%nat) by reflexivity.
  assert (B0 : bits (permute key des_pc1 7) = halves C D 0).
  { rewrite B3. unfold halves, rotl_bits. cbn [skipn firstn]. rewrite !app_nil_r. unfold C, D, select. rewrite <- map_app. reflexivity. }
  assert (B16 : bits (permute key des_pc1 7) = halves C D 28).
  { rewrite B0. unfold halves.
    assert (RC : rotl_bits 28 C = C) by (rewrite <- LC at 1; apply rotl_all). assert (RD : rotl_bits 28 D = D) by (rewrite <- LD at 1; apply rotl_all).
    rewrite RC, RD. unfold rotl_bits. cbn [skipn firstn]. rewrite !app_nil_r. reflexivity. }
  assert (SK : subkeys (bits key) = map (fun j => select PC2 (halves C D (shift_sum (S j)))) (seq 0 16)) by reflexivity.
  clearbody C D.
  assert (SR : rev (subkeys (bits key)) = map (fun j => select PC2 (halves C D (shift_sum (16 - j)))) (seq 0 16)).
  { rewrite SK, <- map_rev. change (rev (seq 0 16)) with (map (fun j => (15 - j)%nat) (seq 0 16)). rewrite map_map. apply map_ext_in. intros j Hj. apply in_seq in Hj.
    do 3 f_equal. lia. }
  assert (S0 : split_ok (permute src des_ip 8) (firstn 32 (select IP (bits src))) (skipn 32 (select IP (bits src)))).
  { split; [auto|]. split; [auto|]. change IP with des_ip. rewrite <- A3. rewrite <- (firstn_skipn 4 (permute src des_ip 8)) at 2 4. rewrite bits_app.
    rewrite firstn_exact, skipn_exact by (rewrite bits_len, firstn_length; lia). split; reflexivity. }
  set (Ks := if e then _ else _). set (t := feistel Ks (firstn 32 (select IP (bits src)), skipn 32 (select IP (bits src)))).
  assert (R : split_ok (fst (fold_left (des_round e) (seq 0 16) (permute src des_ip 8, permute key des_pc1 7))) (fst t) (snd t)).
  { unfold t, Ks. destruct e.
    - rewrite SK. apply enc_rounds; auto.
    - rewrite SR. apply dec_rounds; auto. }
  unfold des_core. fold t. clearbody t. destruct (fold_left _ _ _) as [blk k]. cbn [fst] in R. destruct t as [L R']. cbn [fst snd] in R. destruct R as (R1 & R2 & R3 & R4).
  destruct (permute_ok (skipn 4 blk ++ firstn 4 blk) des_fp 8 eq_refl) as (F1 & F2 & F3). split; [auto|]. split; [auto|].
  rewrite F3, bits_app, R3, R4. reflexivity.
Qed.

(** * Inversion of the specification *)
Lemma f_len R K : length (f_des R K) = 32%nat. Proof. unfold f_des. rewrite select_len. reflexivity. Qed.
Lemma feistel_len Ks : forall L R, length L = 32%nat -> length R = 32%nat ->
  length (fst (feistel Ks (L, R))) = 32%nat /\ length (snd (feistel Ks (L, R))) = 32%nat.
Proof.
  induction Ks as [|K Ks IH]; intros L R HL HR; [split; assumption|]. unfold feistel in *. cbn [fold_left]. apply IH; auto. rewrite xorb_list_len; rewrite ?f_len; auto.
Qed.
Lemma feistel_inv Ks : forall L R, length L = 32%nat -> length R = 32%nat ->
  let t := feistel Ks (L, R) in feistel (rev Ks) (snd t, fst t) = (R, L).
Proof.
  induction Ks as [|K Ks IH]; intros L R HL HR; [reflexivity|]. cbv zeta. cbn [rev]. unfold feistel. rewrite fold_left_app. fold (feistel (rev Ks)).
  cbn [fold_left]. fold (feistel Ks (R, xorb_list L (f_des R K))). rewrite IH; auto; [|rewrite xorb_list_len; rewrite ?f_len; auto].
  rewrite xorb_list_invol by (rewrite f_len; auto). reflexivity.
Qed.
Lemma select_select a b l : Forall (fun t => (1 <= t <= length b)%nat) a -> select a (select b l) = select (map (fun t => nth (t - 1) b 0%nat) a) l.
Proof.
  intro F. unfold select at 1 3. rewrite map_map. apply map_ext_in. intros t Ht. rewrite Forall_forall in F. specialize (F t Ht). apply nth_select. lia.
Qed.
Lemma select_id l : select (seq 1 (length l)) l = l.
Proof.
  apply (list_eq false); [rewrite select_len, seq_length; reflexivity|]. intros j Hj. rewrite select_len, seq_length in Hj. rewrite nth_select by (rewrite seq_length; auto).
  rewrite seq_nth by auto. f_equal. lia.
Qed.
Lemma range_tab (tab : list nat) : forallb (fun t => (Nat.leb 1 t && Nat.leb t 64)%bool) tab = true -> Forall (fun t => (1 <= t <= 64)%nat) tab.
Proof. intro H. apply Forall_forall. intros t Ht. apply (proj1 (forallb_forall _ _) H) in Ht. apply andb_true_iff in Ht. destruct Ht as [A B]. apply Nat.leb_le in A, B. lia. Qed.
Lemma IP_IPinv l : length l = 64%nat -> select IP (select IP_inv l) = l.
Proof. intro L. rewrite select_select by (apply range_tab; reflexivity). change (map _ IP) with (seq 1 64). rewrite <- L. apply select_id. Qed.
Lemma IPinv_IP l : length l = 64%nat -> select IP_inv (select IP l) = l.
Proof. intro L. rewrite select_select by (apply range_tab; reflexivity). change (map _ IP_inv) with (seq 1 64). rewrite <- L. apply select_id. Qed.
Lemma core_len Ks b : length (des_core Ks b) = 64%nat.
Proof. unfold des_core. destruct (feistel _ _). rewrite select_len. reflexivity. Qed.
Lemma core_inv Ks b : length b = 64%nat -> des_core (rev Ks) (des_core Ks b) = b.
Proof.
  intro Lb. unfold des_core at 2. set (x := select IP b). assert (Lx : length x = 64%nat) by reflexivity.
  assert (L1 : length (firstn 32 x) = 32%nat) by (rewrite firstn_length; lia). assert (L2 : length (skipn 32 x) = 32%nat) by (rewrite skipn_length; lia).
  pose proof (feistel_len Ks _ _ L1 L2) as FL. pose proof (feistel_inv Ks _ _ L1 L2) as FI. cbv zeta in FI.
  destruct (feistel Ks (firstn 32 x, skipn 32 x)) as [L R]. cbn [fst snd] in FL, FI. destruct FL as [F1 F2].
  unfold des_core. rewrite IP_IPinv by (rewrite app_length; lia). rewrite firstn_exact, skipn_exact by auto. rewrite FI.
  rewrite firstn_skipn. unfold x. apply IPinv_IP. auto.
Qed.

Definition is_block (b : list Z) : Prop := length b = 8%nat /\ bytes b.
Lemma enc_is_DES key b : is_block b -> des_block true key b = DES key b.
Proof. intros [L H]. destruct (des_block_ok true key b L H) as (A & B & C). unfold DES. rewrite <- C, unbits_bits by auto. reflexivity. Qed.
Lemma dec_is_DES key b : is_block b -> des_block false key b = DES_inv key b.
Proof. intros [L H]. destruct (des_block_ok false key b L H) as (A & B & C). unfold DES_inv. rewrite <- C, unbits_bits by auto. reflexivity. Qed.
Lemma block_block e key b : is_block b -> is_block (des_block e key b).
Proof. intros [L H]. destruct (des_block_ok e key b L H) as (A & B & C). split; auto. Qed.
Lemma dec_enc_block e key b : is_block b -> des_block (negb e) key (des_block e key b) = b.
Proof.
  intros [L H]. destruct (des_block_ok e key b L H) as (A & B & C). destruct (des_block_ok (negb e) key _ A B) as (A' & B' & C').
  apply bits_inj; auto. rewrite C', C. assert (64 = length (bits b))%nat by (rewrite bits_len, L; reflexivity). destruct e; cbn [negb].
  - apply core_inv. auto.
  - rewrite <- (rev_involutive (subkeys (bits key))) at 1. apply core_inv. auto.
Qed.

Lemma block_len e key b : length (des_block e key b) = 8%nat.
Proof. unfold des_block. destruct (fold_left _ _ _). apply permute_ok. reflexivity. Qed.
Local Opaque des_block DES DES_inv.

(** * Contexts *)
Definition desE (c : des) (b : list Z) : list Z :=
  let d := des_block true (key_at c 0) b in
  if Nat.eqb (des_keylen c) 24 then des_block true (key_at c 2) (des_block false (key_at c 1) d) else d.
Definition desD (c : des) (b : list Z) : list Z :=
  if Nat.eqb (des_keylen c) 24 then des_block false (key_at c 0) (des_block true (key_at c 1) (des_block false (key_at c 2) b))
  else des_block false (key_at c 0) b.
Lemma desE_block c b : is_block b -> is_block (desE c b).
Proof. intro H. unfold desE. destruct (Nat.eqb _ _); repeat apply block_block; auto. Qed.
Lemma desD_block c b : is_block b -> is_block (desD c b).
Proof. intro H. unfold desD. destruct (Nat.eqb _ _); repeat apply block_block; auto. Qed.
Lemma desDE c b : is_block b -> desD c (desE c b) = b.
Proof.
  intro H. unfold desD, desE. destruct (Nat.eqb _ _).
  - rewrite (dec_enc_block true) by (repeat apply block_block; auto). rewrite (dec_enc_block false) by (repeat apply block_block; auto). apply (dec_enc_block true). auto.
  - apply (dec_enc_block true). auto.
Qed.
Lemma desED c b : is_block b -> desE c (desD c b) = b.
Proof.
  intro H. unfold desD, desE. destruct (Nat.eqb _ _).
  - rewrite (dec_enc_block false) by (repeat apply block_block; auto). rewrite (dec_enc_block true) by (repeat apply block_block; auto). apply (dec_enc_block false). auto.
  - apply (dec_enc_block false). auto.
Qed.
Lemma desE_len c b : length (desE c b) = 8%nat. Proof. unfold desE. destruct (Nat.eqb _ _); apply block_len. Qed.
Lemma desD_len c b : length (desD c b) = 8%nat. Proof. unfold desD. destruct (Nat.eqb _ _); apply block_len. Qed.
Lemma whole_mod n l : (0 < n)%nat -> whole n l -> Nat.eqb (length l mod n) 0 = true.
Proof. intros Hn H. apply Nat.eqb_eq. apply Nat.mod_divide; [lia|exact H]. Qed.
Lemma ecb_ext n f g l : (0 < n)%nat -> (forall b, length b = n -> bytes b -> f b = g b) -> whole n l -> bytes l -> ecb n f l = ecb n g l.
Proof.
  intros Hn He W. revert l W. apply (whole_ind n (fun l => bytes l -> ecb n f l = ecb n g l)); auto.
  intros a r Ha W IH Hb. apply Forall_app in Hb. destruct Hb. rewrite !ecb_cons by auto. rewrite He, IH by auto. reflexivity.
Qed.
Lemma des_encrypt_eq c l : whole 8 l -> des_encrypt c l = Ok (ecb 8 (desE c) l).
Proof. intro W. unfold des_encrypt. rewrite whole_mod by (auto; lia). reflexivity. Qed.
Lemma des_decrypt_eq c l : whole 8 l -> des_decrypt c l = Ok (ecb 8 (desD c) l).
Proof. intro W. unfold des_decrypt. rewrite whole_mod by (auto; lia). reflexivity. Qed.
Lemma ecb_bytes n f l : (0 < n)%nat -> (forall b, length b = n -> bytes b -> bytes (f b)) -> whole n l -> bytes l -> bytes (ecb n f l).
Proof.
  intros Hn He W. revert l W. apply (whole_ind n (fun l => bytes l -> bytes (ecb n f l))); auto.
  intros a r Ha W IH Hb. apply Forall_app in Hb. destruct Hb. rewrite ecb_cons by auto. apply Forall_app. split; [apply He; auto|apply IH; auto].
Qed.
Lemma whole_len n (a b : list Z) : length a = length b -> whole n b -> whole n a.
Proof. unfold whole. intros ->. auto. Qed.
Lemma des_round_trip c l : whole 8 l -> bytes l ->
  exists m, des_encrypt c l = Ok m /\ length m = length l /\ bytes m /\ des_decrypt c m = Ok l.
Proof.
  intros W Hb. exists (ecb 8 (desE c) l). assert (Lm : length (ecb 8 (desE c) l) = length l) by (apply ecb_length; auto; [lia|intros; apply desE_len]).
  split; [apply des_encrypt_eq; auto|]. split; [auto|]. split; [apply ecb_bytes; auto; [lia|intros b L B; apply (desE_block c b (conj L B))]|].
  rewrite des_decrypt_eq by (eapply whole_len; eauto). f_equal. apply ecb_inverse; auto; [lia|intros; apply desE_len|]. intros b L B. apply desDE. split; auto.
Qed.
Lemma des_round_trip' c l : whole 8 l -> bytes l ->
  exists m, des_decrypt c l = Ok m /\ length m = length l /\ bytes m /\ des_encrypt c m = Ok l.
Proof.
  intros W Hb. exists (ecb 8 (desD c) l). assert (Lm : length (ecb 8 (desD c) l) = length l) by (apply ecb_length; auto; [lia|intros; apply desD_len]).
  split; [apply des_decrypt_eq; auto|]. split; [auto|]. split; [apply ecb_bytes; auto; [lia|intros b L B; apply (desD_block c b (conj L B))]|].
  rewrite des_encrypt_eq by (eapply whole_len; eauto). f_equal. apply ecb_inverse; auto; [lia|intros; apply desD_len|]. intros b L B. apply desED. split; auto.
Qed.
Lemma des_cipher c : cipher 8 (desE c) (desD c).
Proof.
  split; [intros; apply desE_len|]. split; [intros b L B; apply (desE_block c b (conj L B))|]. split; [intros; apply desD_len|]. intros b L B. apply desDE. split; auto.
Qed.
(** keys *)
Lemma key_at_pad key i : (length key < 24)%nat -> key_at (des_key_set key) i = firstn 8 (skipn (8 * i) (key ++ repeat 0 (24 - length key))).
Proof. intro H. unfold key_at, des_key_set. cbn [des_key]. rewrite Nat.min_l by lia. rewrite firstn_all. reflexivity. Qed.
Lemma key_at_long key i : (24 <= length key)%nat -> (i < 3)%nat -> key_at (des_key_set key) i = firstn 8 (skipn (8 * i) key).
Proof.
  intros H Hi. unfold key_at, des_key_set. cbn [des_key]. rewrite Nat.min_r by lia. rewrite Nat.sub_diag. cbn [repeat]. rewrite app_nil_r.
  rewrite skipn_firstn_comm, firstn_firstn. f_equal. lia.
Qed.
Lemma des_single key l : (length key < 24)%nat -> whole 8 l -> bytes l ->
  let k := firstn 8 (key ++ repeat 0 (24 - length key)) in
  des_encrypt (des_key_set key) l = Ok (ecb 8 (DES k) l) /\ des_decrypt (des_key_set key) l = Ok (ecb 8 (DES_inv k) l).
Proof.
  intros Hk W Hb k. rewrite des_encrypt_eq, des_decrypt_eq by auto.
  assert (E : Nat.eqb (des_keylen (des_key_set key)) 24 = false) by (apply Nat.eqb_neq; unfold des_key_set; cbn [des_keylen]; lia).
  assert (K : key_at (des_key_set key) 0 = k) by (rewrite key_at_pad by auto; reflexivity).
  split; f_equal; apply ecb_ext; auto; try lia; intros b L B.
  - unfold desE. rewrite E, K. apply enc_is_DES. split; auto.
  - unfold desD. rewrite E, K. apply dec_is_DES. split; auto.
Qed.
Lemma des_single8 key l : length key = 8%nat -> whole 8 l -> bytes l ->
  des_encrypt (des_key_set key) l = Ok (ecb 8 (DES key) l) /\ des_decrypt (des_key_set key) l = Ok (ecb 8 (DES_inv key) l).
Proof.
  intros Hk W Hb. pose proof (des_single key l ltac:(lia) W Hb) as H. cbv zeta in H. rewrite firstn_exact in H by auto. exact H.
Qed.
Lemma DES_block key b : is_block b -> is_block (DES key b). Proof. intro H. rewrite <- enc_is_DES by auto. apply block_block. auto. Qed.
Lemma DES_inv_block key b : is_block b -> is_block (DES_inv key b). Proof. intro H. rewrite <- dec_is_DES by auto. apply block_block. auto. Qed.
Lemma des_triple k1 k2 k3 rest l : length k1 = 8%nat -> length k2 = 8%nat -> length k3 = 8%nat -> whole 8 l -> bytes l ->
  let key := k1 ++ k2 ++ k3 ++ rest in
  des_encrypt (des_key_set key) l = Ok (ecb 8 (TDEA k1 k2 k3) l) /\ des_decrypt (des_key_set key) l = Ok (ecb 8 (TDEA_inv k1 k2 k3) l).
Proof.
  intros L1 L2 L3 W Hb key. rewrite des_encrypt_eq, des_decrypt_eq by auto.
  assert (Lk : (24 <= length key)%nat) by (unfold key; rewrite !app_length; lia).
  assert (E : Nat.eqb (des_keylen (des_key_set key)) 24 = true) by (apply Nat.eqb_eq; unfold des_key_set; cbn [des_keylen]; lia).
  assert (K0 : key_at (des_key_set key) 0 = k1) by (rewrite key_at_long by (auto; lia); unfold key; cbn [Nat.mul skipn]; apply firstn_exact; auto).
  assert (K1 : key_at (des_key_set key) 1 = k2).
  { rewrite key_at_long by (auto; lia). unfold key. rewrite (skipn_exact k1) by auto. apply firstn_exact. auto. }
  assert (K2 : key_at (des_key_set key) 2 = k3).
  { rewrite key_at_long by (auto; lia). unfold key. rewrite app_assoc. rewrite (skipn_exact (k1 ++ k2)) by (rewrite app_length; lia). apply firstn_exact. auto. }
  split; f_equal; apply ecb_ext; auto; try lia; intros b L B; assert (P : is_block b) by (split; auto).
  - unfold desE, TDEA. rewrite E, K0, K1, K2. cbv zeta. rewrite (enc_is_DES k1 b P). rewrite dec_is_DES by (apply DES_block; auto). apply enc_is_DES. apply DES_inv_block, DES_block. auto.
  - unfold desD, TDEA_inv. rewrite E, K0, K1, K2. rewrite (dec_is_DES k3 b P). rewrite enc_is_DES by (apply DES_inv_block; auto). apply dec_is_DES. apply DES_block, DES_inv_block. auto.
Qed.
