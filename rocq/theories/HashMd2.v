(** SHA-512, SHA-384 and MD5. *)
From Verif Require Import Base Bits BytesSpec Bytes Lists Modes Modes2 HashTables HashModel HashSpec HashBase HashComp HashStream HashMd.

Definition iv5 (is384 : bool) : list Z := if is384 then H384 else H512.
Lemma iv5_ok (b : bool) : (if b then sha384_iv else sha512_iv) = iv5 b. Proof. destruct b; vm_compute; reflexivity. Qed.
Lemma iv5_regs b : regs 64 8 (iv5 b).
Proof. rewrite <- iv5_ok. destruct b; (split; [reflexivity|]); repeat (apply Forall_cons; [unfold wordw; lia|]); apply Forall_nil. Qed.
Lemma lt128 : (0 < 128)%nat. Proof. lia. Qed.
Notation A5 lem b := (lem 128%nat sha512_process sha512_compress (regs 64 8) (iv5 b) lt128 sha512_process_ok (iv5_regs b)) (only parsing).
Definition s5_inv (b : bool) (m : list Z) (N : Z) (c : sha512) : Prop :=
  feeds 128 sha512_compress (regs 64 8) (iv5 b) m (s5_data c) (length m mod 128) (s5_state c) /\ 0 <= s5_len0 c < 2 ^ 64 /\ 0 <= s5_len1 c < 2 ^ 64 /\
  s5_len1 c * 2 ^ 64 + s5_len0 c = N mod 2 ^ 128 /\ N mod 128 = Z.of_nat (length m) mod 128 /\ s5_is384 c = b.
Lemma s5_inv_init b : s5_inv b [] 0 (sha512_init b).
Proof. split; [cbn [sha512_init s5_data s5_state]; rewrite iv5_ok; apply (A5 feeds_init b)|]. cbn [sha512_init s5_len0 s5_len1 s5_is384]. repeat split; lia. Qed.
Lemma s5_left b m N c : s5_inv b m N c -> Z.to_nat (Z.land (s5_len0 c) 0x7F) = (length m mod 128)%nat.
Proof. intros (F & H0 & H1 & E & M & _). apply (left_ok 7 64 _ (s5_len1 c) N); auto; lia. Qed.
Lemma s5_inv_update b m N c d : s5_inv b m N c -> bytes d -> s5_inv b (m ++ d) (N + Z.of_nat (length d) mod 2 ^ 32) (sha512_update c d).
Proof.
  intros I Hd. pose proof (s5_left b m N c I) as EL. destruct I as (F & H0 & H1 & E & M & Eb). unfold sha512_update. cbv zeta.
  destruct (Z.eqb_spec (Z.of_nat (length d)) 0) as [Z|Z].
  { destruct d; [|cbn [length] in Z; lia]. rewrite app_nil_r, Z.add_0_r. repeat (split; [assumption|]). assumption. }
  rewrite EL. pose proof ((A5 absorb_ok b) _ _ _ _ d F Hd) as Q.
  destruct (absorb 128 sha512_process (s5_data c) (s5_state c) (length m mod 128) d) as [buf st]. cbn [fst snd] in Q.
  split; [exact Q|]. cbn [s5_len0 s5_len1 s5_is384].
  destruct (counter_add (2 ^ 64) (s5_len0 c) (s5_len1 c) N (Z.of_nat (length d) mod 2 ^ 32)) as (C1 & C2 & C3); auto; [lia|pose proof (Z.mod_pos_bound (Z.of_nat (length d)) (2 ^ 32)); lia|].
  split; [exact C1|]. split; [exact C2|]. split; [exact C3|]. split; [|exact Eb].
  rewrite app_length, Nat2Z.inj_add, Zplus_mod, M, <- Zplus_mod. rewrite <- Zplus_mod_idemp_r. rewrite mod_of_mod by (try lia; exists (2 ^ 25); reflexivity). rewrite Zplus_mod_idemp_r. reflexivity.
Qed.
Lemma s5_inv_updates b ds : forall m N c, s5_inv b m N c -> Forall bytes ds -> s5_inv b (m ++ concat ds) (N + counted ds) (fold_left sha512_update ds c).
Proof.
  induction ds as [|d ds IH]; intros m N c I H; cbn [fold_left concat counted fold_right]; [rewrite app_nil_r, Z.add_0_r; auto|]. inversion H; subst.
  rewrite app_assoc, Z.add_assoc. apply IH; auto. apply s5_inv_update; auto.
Qed.
Definition out5 (b : bool) (st : list Z) : list Z := firstn (if b then 48 else 64) (out_be 8 st).
Lemma firstn_out k ws : firstn (8 * k) (out_be 8 ws) = out_be 8 (firstn k ws).
Proof.
  revert ws. induction k as [|k IH]; intro ws; [reflexivity|]. destruct ws as [|w ws]; [rewrite firstn_nil; reflexivity|].
  unfold out_be in *. cbn [map concat firstn]. replace (8 * S k)%nat with (length (be_bytes 8 w) + 8 * k)%nat by (rewrite be_bytes_length; lia).
  rewrite firstn_app_2, IH. reflexivity.
Qed.
Lemma out5_ok (b : bool) st : concat (map (write_be 8) (firstn (if b then 6 else 8) st)) = out5 b st.
Proof. rewrite out_write_be. unfold out5. destruct b; [rewrite <- (firstn_out 6)|rewrite <- (firstn_out 8)]; reflexivity. Qed.
Lemma s5_pad b m N c : s5_inv b m N c ->
  sha512_digest c = out5 b (iterate 128 sha512_compress (iv5 b)
    (if Nat.ltb (length m mod 128) 112 then pad_with 128 16 (be_bytes 16 (8 * N)) m else m ++ 128 :: repeat 0 (127 - length m mod 128))).
Proof.
  intros I. unfold sha512_digest. cbv zeta. rewrite (s5_left b m N c I). set (i := (length m mod 128)%nat). assert (Hi : (i < 128)%nat) by (apply Nat.mod_upper_bound; lia).
  assert (EF : write_be 8 (Z.lor (Z.shiftr (s5_len0 c) 61) (Z.shiftl (s5_len1 c) 3 mod 2 ^ 64)) ++ write_be 8 (Z.shiftl (s5_len0 c) 3 mod 2 ^ 64) = be_bytes 16 (8 * N)).
  { destruct I as (F & H0 & H1 & E & M & _). apply (len_field 64 8); auto; lia. }
  rewrite EF. set (padlen := (if Nat.ltb i 112 then 112 - i else 128 - i)%nat).
  assert (Bp : (0 < padlen <= 128)%nat) by (unfold padlen; destruct (Nat.ltb_spec i 112); lia).
  pose proof (s5_inv_update _ _ _ _ _ I (bytes_firstn padlen (128 :: repeat 0 127) ltac:(constructor; [unfold byte; lia|apply bytes_repeat0]))) as I2.
  rewrite pad_cut in * by lia.
  pose proof (s5_inv_update _ _ _ _ _ I2 (be_bytes_bytes 16 (8 * N))) as I3.
  pose proof (Nat.div_mod (length m) 128 ltac:(lia)) as D. fold i in D.
  assert (E3 : s5_is384 (sha512_update (sha512_update c (128 :: repeat 0 (padlen - 1))) (be_bytes 16 (8 * N))) = b) by apply I3. rewrite E3, out5_ok. f_equal. clear E3.
  unfold padlen in *. destruct (Nat.ltb_spec i 112) as [H|H]; clear padlen.
  - destruct I3 as (F & _). set (M := (m ++ _) ++ _) in F.
    assert (EM : M = pad_with 128 16 (be_bytes 16 (8 * N)) m).
    { unfold M, pad_with. rewrite <- app_assoc. f_equal. cbn [app]. f_equal. f_equal. f_equal. unfold zeros_needed. fold i. change (2 * 128 - 16 - 1)%nat with 239%nat.
      replace (239 - i)%nat with ((111 - i) + 1 * 128)%nat by lia. rewrite Nat.mod_add, Nat.mod_small by lia. lia. }
    assert (EL : (length M mod 128 = 0)%nat).
    { unfold M. rewrite !app_length, be_bytes_length. cbn [length]. rewrite repeat_length.
      replace (length m + S (112 - i - 1) + 16)%nat with ((length m / 128 + 1) * 128)%nat by lia. apply Nat.mod_mul. lia. }
    rewrite EL in F. rewrite <- EM. apply ((A5 feeds_iterate b) _ _ _ F).
  - destruct I2 as (F & H0 & H1 & EN & EM & Eb). set (M := m ++ _) in *. replace (m ++ 128 :: repeat 0 (127 - i)) with M by (unfold M; do 3 f_equal; lia).
    assert (EL : (length M mod 128 = 0)%nat).
    { unfold M. rewrite !app_length. cbn [length]. rewrite repeat_length.
      replace (length m + S (128 - i - 1))%nat with ((length m / 128 + 1) * 128)%nat by lia. apply Nat.mod_mul. lia. }
    rewrite EL in F. rewrite <- ((A5 feeds_iterate b) _ _ _ F).
    (* the length only reaches the buffer *)
    unfold sha512_update at 1. cbv zeta. rewrite be_bytes_length. change (Z.of_nat 16 =? 0) with false. cbv iota.
    assert (E0 : Z.to_nat (Z.land (s5_len0 (sha512_update c (128 :: repeat 0 (128 - i - 1)))) 127) = 0%nat).
    { transitivity (length M mod 128)%nat; [|exact EL]. apply (left_ok 7 64 _ (s5_len1 (sha512_update c (128 :: repeat 0 (128 - i - 1)))) (N + Z.of_nat (length (128 :: repeat 0 (128 - i - 1))) mod 2 ^ 32)); [lia|apply H0|exact EN|lia|exact EM]. }
    rewrite E0. unfold absorb. cbn [Nat.eqb negb andb]. rewrite be_bytes_length. cbn [blocks]. rewrite be_bytes_length. reflexivity.
Qed.
Theorem sha512_exact b ds : Forall bytes ds -> sha512_digest (fold_left sha512_update ds (sha512_init b)) =
  out5 b (iterate 128 sha512_compress (iv5 b)
    (if Nat.ltb (length (concat ds) mod 128) 112 then pad_with 128 16 (be_bytes 16 (8 * counted ds)) (concat ds)
     else concat ds ++ 128 :: repeat 0 (127 - length (concat ds) mod 128))).
Proof. intro H. apply (s5_pad b (concat ds) (counted ds)). apply (s5_inv_updates b ds [] 0 _ (s5_inv_init b) H). Qed.
Lemma out5_512 m : out5 false (iterate 128 sha512_compress H512 (sha_pad 128 16 m)) = SHA512 m.
Proof.
  unfold out5, SHA512. apply firstn_all2. set (l := iterate _ _ _ _).
  assert (R : regs 64 8 l \/ True) by auto. clear R.
  assert (L : length l = 8%nat \/ (length l < 8)%nat).
  { unfold l, iterate. assert (G : forall bl st, (length st = 8 -> length (fold_left sha512_compress bl st) <= 8)%nat).
    { induction bl as [|x bl IH]; intros st Hs; cbn [fold_left]; [lia|].
      assert (K : forall y st, (length st <= 8)%nat -> (length (fold_left sha512_compress y st) <= 8)%nat).
      { induction y as [|z y IHy]; intros s Hl; cbn [fold_left]; auto. apply IHy. unfold sha512_compress, add_words. cbv zeta. rewrite map_length, combine_length. lia. }
      apply K. unfold sha512_compress, add_words. cbv zeta. rewrite map_length, combine_length. lia. }
    pose proof (G (chunks 128 (sha_pad 128 16 m)) H512 eq_refl). lia. }
  assert (O : forall l, length (out_be 8 l) = (8 * length l)%nat).
  { induction l0 as [|x l0 IH]; [reflexivity|]. unfold out_be in *. cbn [map concat length]. rewrite app_length, be_bytes_length, IH. lia. }
  rewrite O. lia.
Qed.
Theorem sha512_ok ds : Forall bytes ds -> Forall (fun d => Z.of_nat (length d) < 2 ^ 32) ds -> (length (concat ds) mod 128 < 112)%nat ->
  sha512_digest (fold_left sha512_update ds (sha512_init false)) = SHA512 (concat ds) /\
  sha512_digest (fold_left sha512_update ds (sha512_init true)) = SHA384 (concat ds).
Proof.
  intros H L B. rewrite !sha512_exact, counted_exact by auto. destruct (Nat.ltb_spec (length (concat ds) mod 128) 112); [|lia].
  split; [|reflexivity]. apply out5_512.
Qed.

(** * MD5 *)
Definition md5_f (st d : list Z) : list Z := md5_process st (map (fun i => read_le 4 d (4 * i)) (seq 0 16)).
Lemma md5_f_ok st d : regs 32 4 st -> bytes d -> length d = 64%nat -> md5_f st d = md5_compress st d /\ regs 32 4 (md5_compress st d).
Proof.
  intros Hs Hb L. unfold md5_f. rewrite (read_words_le 4 16) by (auto; lia).
  change (md5_compress st d) with (md5_words st (map le_val (chunks 4 d))). apply md5_process_ok. auto.
Qed.
Lemma HMD5_regs : regs 32 4 HMD5.
Proof. split; [reflexivity|]. repeat (apply Forall_cons; [unfold wordw; lia|]). apply Forall_nil. Qed.
Notation AM lem := (lem 64%nat md5_f md5_compress (regs 32 4) HMD5 lt64 md5_f_ok HMD5_regs) (only parsing).
Notation feedsM := (feeds 64 md5_compress (regs 32 4) HMD5).
Definition m5_inv (m : list Z) (N : Z) (c : md5) : Prop :=
  feedsM m (m5_data c) (length m mod 64) (m5_state c) /\ 0 <= m5_len0 c < 2 ^ 32 /\ 0 <= m5_len1 c < 2 ^ 32 /\
  m5_len1 c * 2 ^ 32 + m5_len0 c = (8 * N) mod 2 ^ 64 /\ N mod 64 = Z.of_nat (length m) mod 64.
Lemma m5_inv_init : m5_inv [] 0 md5_init.
Proof. split; [apply (AM feeds_init)|]. cbn [md5_init m5_len0 m5_len1]. repeat split; lia. Qed.
Lemma m5_bytes d : forall m buf n st, feedsM m buf n st -> bytes d ->
  let '(buf', st', n') := fold_left md5_byte d (buf, st, n) in feedsM (m ++ d) buf' n' st'.
Proof.
  induction d as [|x d IH]; intros m buf n st F Hd; cbn [fold_left]; [rewrite app_nil_r; auto|].
  inversion Hd; subst. pose proof ((AM feeds_byte) _ _ _ _ x F H1) as Q. replace (m ++ x :: d) with ((m ++ [x]) ++ d) by (rewrite <- app_assoc; reflexivity).
  unfold md5_byte at 2. cbv beta iota zeta. fold md5_byte. destruct (Nat.eqb (n + 1) 64); apply IH; auto.
Qed.
Lemma m5_mdi m N c : m5_inv m N c -> Z.to_nat (Z.land (Z.shiftr (m5_len0 c) 3) 0x3F) = (length m mod 64)%nat.
Proof.
  intros (F & H0 & H1 & E & M). rewrite Z.shiftr_div_pow2 by lia. change (2 ^ 3) with 8. change 63 with (Z.ones 6). rewrite Z.land_ones by lia. change (2 ^ 6) with 64.
  apply Nat2Z.inj. rewrite Z2Nat.id by (apply Z.mod_pos_bound; lia). rewrite Nat2Z.inj_mod. change (Z.of_nat 64) with 64. rewrite <- M.
  set (a := m5_len0 c) in *. set (b := m5_len1 c) in *. clearbody a b. clear - E. 
  pose proof (Z.div_mod (8 * N) (2 ^ 64) ltac:(lia)) as D. rewrite <- E in D. set (q := 8 * N / 2 ^ 64) in *. clearbody q.
  assert (A : a = 8 * (N - 2 ^ 61 * q - b * 2 ^ 29)) by lia. rewrite A. rewrite Z.mul_comm, Z.div_mul by lia.
  replace (N - 2 ^ 61 * q - b * 2 ^ 29) with (N + (- (2 ^ 55 * q) - b * 2 ^ 23) * 64) by lia. apply Z_mod_plus_full.
Qed.
Lemma m5_counter lo hi N v : 0 <= lo < 2 ^ 32 -> 0 <= hi < 2 ^ 32 -> hi * 2 ^ 32 + lo = (8 * N) mod 2 ^ 64 -> 0 <= v < 2 ^ 32 ->
  let sum := (lo + Z.shiftl v 3 mod 2 ^ 32) mod 2 ^ 32 in
  let h1 := if sum <? lo then (hi + 1) mod 2 ^ 32 else hi in
  let h2 := (h1 + Z.shiftr v 29) mod 2 ^ 32 in
  0 <= sum < 2 ^ 32 /\ 0 <= h2 < 2 ^ 32 /\ h2 * 2 ^ 32 + sum = (8 * (N + v)) mod 2 ^ 64.
Proof.
  intros Hlo Hhi E Hv sum h1 h2. assert (B1 : 0 <= sum < 2 ^ 32) by (apply Z.mod_pos_bound; lia).
  assert (B2 : 0 <= h2 < 2 ^ 32) by (apply Z.mod_pos_bound; lia). split; [auto|]. split; [auto|].
  replace (8 * (N + v)) with (8 * N + 8 * v) by ring. rewrite <- Zplus_mod_idemp_l, <- E.
  clear B1 B2 E. subst h2 h1 sum. rewrite Z.shiftl_mul_pow2, Z.shiftr_div_pow2 by lia. change (2 ^ 3) with 8.
  set (bl := (v * 8) mod 2 ^ 32). set (bh := v / 2 ^ 29).
  assert (Hb : v * 8 = bh * 2 ^ 32 + bl).
  { unfold bl, bh. replace (v / 2 ^ 29) with (v * 8 / 2 ^ 32). { rewrite (Z.div_mod (v * 8) (2 ^ 32)) at 1 by lia. ring. } 
    change (2 ^ 32) with (2 ^ 29 * 8). apply Z.div_mul_cancel_r; lia. }
  assert (Hbl : 0 <= bl < 2 ^ 32) by (apply Z.mod_pos_bound; lia). clearbody bl bh.
  assert (Hs : (lo + bl < 2 ^ 32 /\ (lo + bl) mod 2 ^ 32 = lo + bl) \/ (2 ^ 32 <= lo + bl /\ (lo + bl) mod 2 ^ 32 = lo + bl - 2 ^ 32)).
  { destruct (Z_lt_ge_dec (lo + bl) (2 ^ 32)); [left|right]; (split; [lia|]); [apply Z.mod_small; lia|]. symmetry. apply (Z.mod_unique _ _ 1); lia. }
  replace (hi * 2 ^ 32 + lo + 8 * v) with ((hi + bh) * 2 ^ 32 + (lo + bl)) by lia.
  assert (G : forall H L, 0 <= L < 2 ^ 32 -> (H mod 2 ^ 32) * 2 ^ 32 + L = (H * 2 ^ 32 + L) mod 2 ^ 64).
  { intros H L HL. pose proof (Z.mod_pos_bound H (2 ^ 32) ltac:(lia)). pose proof (Z.div_mod H (2 ^ 32) ltac:(lia)).
    apply (Z.mod_unique _ _ (H / 2 ^ 32)); [left|]; lia. }
  destruct Hs as [[C1 C2]|[C1 C2]]; rewrite C2.
  - destruct (Z.ltb_spec (lo + bl) lo); [lia|]. apply G. lia.
  - destruct (Z.ltb_spec (lo + bl - 2 ^ 32) lo); [|lia]. rewrite Zplus_mod_idemp_l. rewrite G by lia. f_equal. ring.
Qed.
Lemma m5_inv_update m N c d : m5_inv m N c -> bytes d -> m5_inv (m ++ d) (N + Z.of_nat (length d) mod 2 ^ 32) (md5_update c d).
Proof.
  intros I Hd. pose proof (m5_mdi m N c I) as EL. destruct I as (F & H0 & H1 & E & M). unfold md5_update. cbv zeta. rewrite EL.
  pose proof (m5_bytes d _ _ _ _ F Hd) as Q.
  destruct (fold_left md5_byte d (m5_data c, m5_state c, (length m mod 64)%nat)) as [[buf st] n].
  split; [cbn [m5_data m5_state]; rewrite <- ((AM feeds_n) _ _ _ _ Q); exact Q|]. cbn [m5_len0 m5_len1].
  destruct (m5_counter (m5_len0 c) (m5_len1 c) N (Z.of_nat (length d) mod 2 ^ 32)) as (C1 & C2 & C3); auto; [apply Z.mod_pos_bound; lia|].
  split; [exact C1|]. split; [exact C2|]. split; [exact C3|].
  rewrite app_length, Nat2Z.inj_add, Zplus_mod, M, <- Zplus_mod. rewrite <- Zplus_mod_idemp_r. rewrite mod_of_mod by (try lia; exists (2 ^ 26); reflexivity). rewrite Zplus_mod_idemp_r. reflexivity.
Qed.
Lemma m5_inv_updates ds : forall m N c, m5_inv m N c -> Forall bytes ds -> m5_inv (m ++ concat ds) (N + counted ds) (fold_left md5_update ds c).
Proof.
  induction ds as [|d ds IH]; intros m N c I H; cbn [fold_left concat counted fold_right]; [rewrite app_nil_r, Z.add_0_r; auto|]. inversion H; subst.
  rewrite app_assoc, Z.add_assoc. apply IH; auto. apply m5_inv_update; auto.
Qed.
Lemma le_val_app a b : le_val (a ++ b) = le_val a + 256 ^ Z.of_nat (length a) * le_val b.
Proof. induction a as [|x a IH]; [cbn [app length le_val]; change (256 ^ Z.of_nat 0) with 1; lia|]. cbn [app length le_val]. rewrite IH, pow256_S. ring. Qed.
Lemma m5_pad m N c : m5_inv m N c ->
  md5_digest c = concat (map (le_bytes 4) (iterate 64 md5_compress HMD5 (pad_with 64 8 (le_bytes 8 (8 * N)) m))).
Proof.
  intros I. unfold md5_digest. cbv zeta. rewrite (m5_mdi m N c I). set (i := (length m mod 64)%nat). assert (Hi : (i < 64)%nat) by (apply Nat.mod_upper_bound; lia).
  rewrite (map_ext _ _ (write_le_ok 4)). f_equal. f_equal.
  set (padlen := (if Nat.ltb i 56 then 56 - i else 120 - i)%nat).
  assert (Ep : padlen = (zeros_needed 64 8 (length m) + 1)%nat).
  { unfold padlen, zeros_needed. fold i. change (2 * 64 - 8 - 1)%nat with 119%nat. destruct (Nat.ltb_spec i 56).
    - replace (119 - i)%nat with ((55 - i) + 1 * 64)%nat by lia. rewrite Nat.mod_add, Nat.mod_small by lia. lia.
    - rewrite Nat.mod_small by lia. lia. }
  assert (Bp : (0 < padlen <= 64)%nat) by (unfold padlen; destruct (Nat.ltb_spec i 56); lia).
  pose proof (m5_inv_update _ _ _ _ I (bytes_firstn padlen (128 :: repeat 0 63) ltac:(constructor; [unfold byte; lia|apply bytes_repeat0]))) as I2.
  rewrite pad_cut in * by lia. set (c' := md5_update c (128 :: repeat 0 (padlen - 1))) in *. destruct I2 as (F & _).
  assert (EL : (length (m ++ 128%Z :: repeat 0%Z (padlen - 1)) mod 64 = 56)%nat).
  { rewrite !app_length. cbn [length]. rewrite repeat_length.
    pose proof (Nat.div_mod (length m) 64 ltac:(lia)) as D. fold i in D. unfold padlen. destruct (Nat.ltb_spec i 56).
    - replace (length m + S (56 - i - 1))%nat with (56 + (length m / 64) * 64)%nat by lia. rewrite Nat.mod_add by lia. reflexivity.
    - replace (length m + S (120 - i - 1))%nat with (56 + (length m / 64 + 1) * 64)%nat by lia. rewrite Nat.mod_add by lia. reflexivity. }
  rewrite EL in F. set (lenb := le_bytes 8 (8 * N)). 
  assert (Ew : map (fun j => read_le 4 (m5_data c') (4 * j)) (seq 0 14) ++ [m5_len0 c; m5_len1 c] = map (fun j => read_le 4 (firstn 56 (m5_data c') ++ lenb) (4 * j)) (seq 0 16)).
  { destruct F as (_ & Bb & Lb & _). assert (Lf : length (firstn 56 (m5_data c')) = 56%nat) by (apply firstn_length_le; lia).
    assert (Bf : bytes (firstn 56 (m5_data c'))) by (apply bytes_firstn; auto).
    assert (Bl : bytes lenb) by apply le_bytes_bytes. assert (Ll : length lenb = 8%nat) by apply le_bytes_length.
    assert (Ba : bytes (firstn 56 (m5_data c') ++ lenb)) by (apply bytes_app; auto).
    change (seq 0 16) with (seq 0 14 ++ [14; 15]%nat). rewrite map_app. f_equal.
    - apply map_ext_in. intros j Hj. apply in_seq in Hj. rewrite !read_le_ok by (auto; rewrite ?app_length; lia). f_equal.
      rewrite <- (firstn_skipn 56 (m5_data c')) at 1. rewrite !skipn_app, !firstn_app, !skipn_length, Lf. replace (4 - (56 - 4 * j))%nat with 0%nat by lia. reflexivity.
    - cbn [map]. rewrite !read_le_ok by (auto; rewrite ?app_length; lia). 
      rewrite !skipn_app, Lf. rewrite !skipn_all2 with (l := firstn 56 _) by lia. cbn [app]. change (4 * 14 - 56)%nat with 0%nat. change (4 * 15 - 56)%nat with 4%nat. cbn [skipn].
      destruct I as (_ & H0 & H1 & E & _).
      assert (Lv : le_val lenb = m5_len1 c * 2 ^ 32 + m5_len0 c) by (unfold lenb; rewrite le_val_bytes; rewrite E; reflexivity).
      rewrite <- (firstn_skipn 4 lenb) in Lv. rewrite le_val_app, firstn_length_le in Lv by lia. change (256 ^ Z.of_nat 4) with (2 ^ 32) in Lv.
      pose proof (le_val_bound _ (bytes_firstn 4 _ Bl)) as B1. rewrite firstn_length_le in B1 by lia. change (256 ^ Z.of_nat 4) with (2 ^ 32) in B1.
      rewrite (firstn_all2 (skipn 4 lenb)) by (rewrite skipn_length; lia).
      set (u := le_val (firstn 4 lenb)) in *. set (v := le_val (skipn 4 lenb)) in *. clearbody u v.
      assert (m5_len0 c = u /\ m5_len1 c = v) as [-> ->] by lia. reflexivity. }
  rewrite Ew. change (md5_process (m5_state c') (map (fun j => read_le 4 (firstn 56 (m5_data c') ++ lenb) (4 * j)) (seq 0 16))) with (md5_f (m5_state c') (firstn 56 (m5_data c') ++ lenb)).
  destruct ((AM feeds_block) _ _ _ _ lenb F (le_bytes_bytes _ _)) as (H1 & _ & _). { unfold lenb. rewrite le_bytes_length. reflexivity. }
  rewrite H1. unfold iterate. f_equal. f_equal. unfold pad_with. rewrite Ep, <- app_assoc. replace (zeros_needed 64 8 (length m) + 1 - 1)%nat with (zeros_needed 64 8 (length m)) by lia. reflexivity.
Qed.
Definition MD5_len (N : Z) (m : list Z) : list Z := concat (map (le_bytes 4) (iterate 64 md5_compress HMD5 (pad_with 64 8 (le_bytes 8 (8 * N)) m))).
Theorem md5_exact ds : Forall bytes ds -> md5_digest (fold_left md5_update ds md5_init) = MD5_len (counted ds) (concat ds).
Proof. intro H. apply (m5_pad (concat ds) (counted ds)). apply (m5_inv_updates ds [] 0 _ m5_inv_init H). Qed.
Theorem md5_ok ds : Forall bytes ds -> Forall (fun d => Z.of_nat (length d) < 2 ^ 32) ds -> md5_digest (fold_left md5_update ds md5_init) = MD5 (concat ds).
Proof. intros H L. rewrite md5_exact, counted_exact by auto. reflexivity. Qed.
