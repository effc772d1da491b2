(** Streaming hashes of the code against the standards. *)
From Verif Require Import Base Bits BytesSpec Bytes Lists Modes Modes2 HashTables HashModel HashSpec HashBase HashComp HashStream.

(** * SHA-256 *)
Lemma lt64 : (0 < 64)%nat. Proof. lia. Qed.
Lemma H256_ok : sha256_iv = H256. Proof. vm_compute. reflexivity. Qed.
Lemma H256_regs : regs 32 8 H256.
Proof. rewrite <- H256_ok. split; [reflexivity|]. repeat (apply Forall_cons; [unfold wordw; lia|]). apply Forall_nil. Qed.
Notation A2 lem := (lem 64%nat sha256_transform sha256_compress (regs 32 8) H256 lt64 sha256_transform_ok H256_regs) (only parsing).
Notation feeds2 := (feeds 64 sha256_compress (regs 32 8) H256).
Definition s2_inv (m : list Z) (c : sha256) : Prop :=
  feeds2 m (s2_data c) (s2_datalen c) (s2_state c) /\ s2_bitlen c = (8 * (Z.of_nat (length m) - Z.of_nat (s2_datalen c))) mod 2 ^ 64.
Lemma s2_inv_init : s2_inv [] sha256_init.
Proof. split; [|reflexivity]. cbn [sha256_init s2_data s2_datalen s2_state]. rewrite H256_ok. apply (A2 feeds_init). Qed.
Lemma s2_inv_byte m c b : s2_inv m c -> byte b -> s2_inv (m ++ [b]) (sha256_byte c b).
Proof.
  intros [F L] Hb. pose proof ((A2 feeds_byte) _ _ _ _ b F Hb) as Q.
  unfold sha256_byte. cbv zeta. destruct (Nat.eqb_spec (s2_datalen c + 1) 64) as [E|E]; (split; [exact Q|]); cbn [s2_bitlen s2_datalen]; rewrite L, app_length; cbn [length].
  - rewrite Zplus_mod_idemp_l. f_equal. lia.
  - f_equal. lia.
Qed.
Lemma s2_inv_update m c d : s2_inv m c -> bytes d -> s2_inv (m ++ d) (sha256_update c d).
Proof.
  unfold sha256_update. revert m c. induction d as [|b d IH]; intros m c I Hd; cbn [fold_left]; [rewrite app_nil_r; auto|].
  inversion Hd; subst. replace (m ++ b :: d) with ((m ++ [b]) ++ d) by (rewrite <- app_assoc; reflexivity). apply IH; auto. apply s2_inv_byte; auto.
Qed.
Lemma s2_inv_updates ds : forall m c, s2_inv m c -> Forall bytes ds -> s2_inv (m ++ concat ds) (fold_left sha256_update ds c).
Proof.
  induction ds as [|d ds IH]; intros m c I H; cbn [fold_left concat]; [rewrite app_nil_r; auto|]. inversion H; subst.
  rewrite app_assoc. apply IH; auto. apply s2_inv_update; auto.
Qed.
Lemma out_write_be n ws : concat (map (write_be n) ws) = out_be n ws.
Proof. unfold out_be. f_equal. apply map_ext. intro. apply write_be_ok. Qed.
Lemma blit_at a b c : forall n, length a = n -> blit (a ++ b) n c = a ++ c ++ skipn (length c) b.
Proof. intros n <-. unfold blit. rewrite firstn_exact by auto. rewrite skipn_app. rewrite (skipn_all2 a) by lia. replace (length a + length c - length a)%nat with (length c) by lia. reflexivity. Qed.
Lemma s2_pad m c : s2_inv m c -> sha256_digest c = out_be 4 (iterate 64 sha256_compress H256 (sha_pad 64 8 m)).
Proof.
  intros [F L]. pose proof ((A2 feeds_n) _ _ _ _ F) as En. pose proof F as (Bm & Bb & Lb & Pst & p & q & k & Em & Lp & Lq & Hn & Hq & Hs).
  unfold sha256_digest. cbv zeta. set (i := s2_datalen c) in *. set (bl := (s2_bitlen c + Z.of_nat i * 8 mod 2 ^ 32) mod 2 ^ 64).
  assert (Ebl : write_be 8 bl = be_bytes 8 (8 * Z.of_nat (length m))).
  { rewrite write_be_ok. unfold bl. rewrite (Z.mod_small (Z.of_nat i * 8)) by (clear - Hn; lia). rewrite L, Zplus_mod_idemp_l.
    change (2 ^ 64) with (256 ^ Z.of_nat 8). rewrite be_bytes_mod. f_equal. lia. }
  rewrite Ebl. clear Ebl bl. set (lenb := be_bytes 8 (8 * Z.of_nat (length m))). assert (Ll : length lenb = 8%nat) by apply be_bytes_length.
  assert (Bl : bytes lenb) by apply be_bytes_bytes.
  assert (Epad : sha_pad 64 8 m = m ++ 128 :: repeat 0 ((119 - i) mod 64) ++ lenb).
  { unfold sha_pad, pad_with, zeros_needed. rewrite <- En. reflexivity. }
  rewrite Epad. destruct (Nat.ltb_spec i 56) as [Hi|Hi].
  - rewrite out_write_be. f_equal.
    assert (Ez : ((119 - i) mod 64 = 55 - i)%nat) by (replace (119 - i)%nat with ((55 - i) + 1 * 64)%nat by lia; rewrite Nat.mod_add, Nat.mod_small by lia; reflexivity).
    rewrite Ez. set (x := 128 :: repeat 0 (55 - i) ++ lenb).
    assert (Ed : blit (blit (s2_data c) i (128 :: repeat 0 (56 - (i + 1)))) 56 lenb = firstn i (s2_data c) ++ x).
    { replace (56 - (i + 1))%nat with (55 - i)%nat by lia. set (z := 128 :: repeat 0 (55 - i)). assert (Lz : length z = (56 - i)%nat) by (unfold z; cbn [length]; rewrite repeat_length; lia).
      unfold blit at 2. rewrite app_assoc. rewrite blit_at by (rewrite app_length, firstn_length_le by lia; lia).
      rewrite skipn_skipn, skipn_all2 by lia. rewrite app_nil_r, <- app_assoc. reflexivity. }
    rewrite Ed. apply ((A2 feeds_block) _ _ _ _ x F).
    + constructor; [unfold byte; lia|]. apply bytes_app. split; [apply bytes_repeat0|auto].
    + unfold x. cbn [length]. rewrite app_length, repeat_length. lia.
  - assert (Ez : ((119 - i) mod 64 = (63 - i) + 56)%nat) by (rewrite Nat.mod_small by lia; lia).
    rewrite Ez. set (x := 128 :: repeat 0 (63 - i)). set (y := repeat 0 56 ++ lenb).
    replace (64 - (i + 1))%nat with (63 - i)%nat by lia. fold x. assert (Lx : length x = (64 - i)%nat) by (unfold x; cbn [length]; rewrite repeat_length; lia).
    rewrite out_write_be. f_equal. rewrite repeat_app, <- !app_assoc.
    change (m ++ 128 :: repeat 0 (63 - i) ++ repeat 0 56 ++ lenb) with (m ++ (x ++ y)). rewrite app_assoc.
    rewrite (blit_full (s2_data c) i x) by lia.
    assert (Bx : bytes x) by (constructor; [unfold byte; lia|apply bytes_repeat0]).
    destruct ((A2 feeds_block) _ _ _ _ x F Bx ltac:(lia)) as (H1 & H2 & H3).
    set (d1 := firstn i (s2_data c) ++ x) in *. assert (Ld : length d1 = 64%nat) by (unfold d1; rewrite app_length, firstn_length_le by lia; lia).
    assert (Bd : bytes d1) by (apply bytes_app; split; [apply bytes_firstn; auto|auto]).
    assert (F2 : feeds2 (m ++ x) d1 0 (sha256_transform (s2_state c) d1)).
    { apply (A2 feeds_full); auto. apply bytes_app; auto. }
    assert (Ed : blit (blit d1 0 (repeat 0 56)) 56 lenb = firstn 0 d1 ++ y).
    { unfold blit at 2. rewrite app_assoc. rewrite blit_at by reflexivity. rewrite skipn_skipn, skipn_all2 by (rewrite repeat_length; lia). rewrite app_nil_r, <- app_assoc. reflexivity. }
    rewrite Ed. apply ((A2 feeds_block) _ _ _ _ y F2).
    + apply bytes_app. split; [apply bytes_repeat0|auto].
    + unfold y. rewrite app_length, repeat_length. lia.
Qed.
Theorem sha256_ok ds : Forall bytes ds -> sha256_digest (fold_left sha256_update ds sha256_init) = SHA256 (concat ds).
Proof. intro H. apply s2_pad. apply (s2_inv_updates ds [] _ s2_inv_init H). Qed.

(** * SHA-1 *)
(** what the code counts: the low 32 bits of the length of each piece *)
Definition counted (ds : list (list Z)) : Z := fold_right (fun d n => Z.of_nat (length d) mod 2 ^ 32 + n) 0 ds.
Lemma counted_pos ds : 0 <= counted ds.
Proof. induction ds as [|d ds IH]; cbn [counted fold_right]; [lia|]. fold (counted ds). pose proof (Z.mod_pos_bound (Z.of_nat (length d)) (2 ^ 32)). lia. Qed.
Lemma counted_exact ds : Forall (fun d => Z.of_nat (length d) < 2 ^ 32) ds -> counted ds = Z.of_nat (length (concat ds)).
Proof.
  induction 1 as [|d ds H _ IH]; [reflexivity|]. cbn [counted fold_right concat]. fold (counted ds). rewrite IH, app_length, Z.mod_small by lia. lia.
Qed.
Lemma counted_mod ds n : 0 < n -> (n | 2 ^ 32) -> counted ds mod n = Z.of_nat (length (concat ds)) mod n.
Proof.
  intros Hn D. induction ds as [|d ds IH]; [reflexivity|]. cbn [counted fold_right concat]. fold (counted ds).
  rewrite app_length, Nat2Z.inj_add. rewrite Zplus_mod, IH, <- Zplus_mod. rewrite (Zplus_mod (_ mod _)). rewrite <- Znumtheory.Zmod_div_mod by (auto; lia). rewrite <- Zplus_mod. reflexivity.
Qed.
Lemma H160_regs : regs 32 5 H160.
Proof. split; [reflexivity|]. repeat (apply Forall_cons; [unfold wordw; lia|]). apply Forall_nil. Qed.
Notation A1 lem := (lem 64%nat sha1_process sha1_compress (regs 32 5) H160 lt64 sha1_process_ok H160_regs) (only parsing).
Notation feeds1 := (feeds 64 sha1_compress (regs 32 5) H160).
Definition s1_inv (m : list Z) (N : Z) (c : sha1) : Prop :=
  feeds1 m (s1_data c) (length m mod 64) (s1_state c) /\ 0 <= s1_len0 c < 2 ^ 32 /\ 0 <= s1_len1 c < 2 ^ 32 /\
  s1_len1 c * 2 ^ 32 + s1_len0 c = N mod 2 ^ 64 /\ N mod 64 = Z.of_nat (length m) mod 64.
Lemma s1_inv_init : s1_inv [] 0 sha1_init.
Proof. split; [apply (A1 feeds_init)|]. cbn [sha1_init s1_len0 s1_len1]. repeat split; lia. Qed.
Lemma mod_of_mod n k w : 0 < w -> 0 < k -> (k | w) -> (n mod w) mod k = n mod k.
Proof. intros. symmetry. apply Znumtheory.Zmod_div_mod; auto. Qed.
(** two-word counters *)
Lemma counter_add w lo hi N v : 0 < w -> 0 <= lo < w -> 0 <= hi < w -> hi * w + lo = N mod (w * w) -> 0 <= v < w ->
  let lo' := (lo + v) mod w in let hi' := if lo' <? v then (hi + 1) mod w else hi in
  0 <= lo' < w /\ 0 <= hi' < w /\ hi' * w + lo' = (N + v) mod (w * w).
Proof.
  intros Hw Hlo Hhi E Hv lo' hi'. assert (B1 : 0 <= lo' < w) by (apply Z.mod_pos_bound; auto).
  assert (B2 : 0 <= hi' < w) by (unfold hi'; destruct (lo' <? v); [apply Z.mod_pos_bound; auto|auto]).
  split; [auto|]. split; [auto|]. rewrite <- Zplus_mod_idemp_l, <- E.
  assert (C : (lo + v < w /\ lo' = lo + v) \/ (w <= lo + v /\ lo' = lo + v - w)).
  { destruct (Z_lt_ge_dec (lo + v) w); [left|right]; (split; [lia|]); unfold lo'; [apply Z.mod_small; lia|]. symmetry. apply (Z.mod_unique _ _ 1); lia. }
  unfold hi' in *. destruct C as [[C1 C2]|[C1 C2]]; rewrite C2 in *.
  - destruct (Z.ltb_spec (lo + v) v); [lia|]. rewrite Z.mod_small by nia. lia.
  - destruct (Z.ltb_spec (lo + v - w) v); [|lia].
    destruct (Z_lt_ge_dec (hi + 1) w).
    + rewrite (Z.mod_small (hi + 1)) by lia. rewrite Z.mod_small by nia. lia.
    + assert (hi = w - 1) by lia. subst hi. replace (w - 1 + 1) with w by lia. rewrite Z.mod_same by lia.
      apply (Z.mod_unique _ _ 1); nia.
Qed.
Lemma left_ok (n k l0 l1 N : Z) (m : list Z) : 0 <= n -> 0 <= l0 -> l1 * 2 ^ k + l0 = N mod (2 ^ k * 2 ^ k) -> n <= k -> N mod 2 ^ n = Z.of_nat (length m) mod 2 ^ n -> Z.to_nat (Z.land l0 (Z.ones n)) = (length m mod (2 ^ Z.to_nat n))%nat.
Proof.
  intros Hn H0 E Hk M. rewrite Z.land_ones by auto. apply Nat2Z.inj. rewrite Z2Nat.id by (apply Z.mod_pos_bound, Z.pow_pos_nonneg; lia).
  rewrite Nat2Z.inj_mod, Nat2Z.inj_pow, Z2Nat.id by auto. change (Z.of_nat 2) with 2. rewrite <- M.
  assert (P : 0 < 2 ^ n) by (apply Z.pow_pos_nonneg; lia). assert (Pk : 0 < 2 ^ k) by (apply Z.pow_pos_nonneg; lia).
  assert (D : (2 ^ n | 2 ^ k)) by (exists (2 ^ (k - n)); rewrite <- Z.pow_add_r by lia; f_equal; lia).
  rewrite <- (mod_of_mod N (2 ^ n) (2 ^ k * 2 ^ k)) by (try apply Z.divide_mul_l; auto; nia).
  rewrite <- E. destruct D as [d D]. rewrite D. replace (l1 * (d * 2 ^ n) + l0) with (l0 + (l1 * d) * 2 ^ n) by ring. rewrite Z_mod_plus_full. reflexivity.
Qed.
Lemma s1_left m N c : s1_inv m N c -> Z.to_nat (Z.land (s1_len0 c) 0x3F) = (length m mod 64)%nat.
Proof. intros (F & H0 & H1 & E & M). apply (left_ok 6 32 _ (s1_len1 c) N); auto; lia. Qed.
Lemma s1_inv_update m N c d : s1_inv m N c -> bytes d -> s1_inv (m ++ d) (N + Z.of_nat (length d) mod 2 ^ 32) (sha1_update c d).
Proof.
  intros I Hd. pose proof (s1_left m N c I) as EL. destruct I as (F & H0 & H1 & E & M). unfold sha1_update. cbv zeta.
  destruct (Z.eqb_spec (Z.of_nat (length d)) 0) as [Z|Z].
  { destruct d; [|cbn [length] in Z; lia]. rewrite app_nil_r, Z.add_0_r. repeat (split; [assumption|]). assumption. }
  rewrite EL. pose proof ((A1 absorb_ok) _ _ _ _ d F Hd) as Q.
  destruct (absorb 64 sha1_process (s1_data c) (s1_state c) (length m mod 64) d) as [buf st]. cbn [fst snd] in Q.
  split; [exact Q|]. cbn [s1_len0 s1_len1].
  destruct (counter_add (2 ^ 32) (s1_len0 c) (s1_len1 c) N (Z.of_nat (length d) mod 2 ^ 32)) as (C1 & C2 & C3); auto; [lia|apply Z.mod_pos_bound; lia|].
  split; [exact C1|]. split; [exact C2|]. split; [exact C3|].
  rewrite app_length, Nat2Z.inj_add, Zplus_mod, M, <- Zplus_mod. rewrite <- Zplus_mod_idemp_r. rewrite mod_of_mod by (try lia; exists (2 ^ 26); reflexivity). rewrite Zplus_mod_idemp_r. reflexivity.
Qed.
Lemma s1_inv_updates ds : forall m N c, s1_inv m N c -> Forall bytes ds -> s1_inv (m ++ concat ds) (N + counted ds) (fold_left sha1_update ds c).
Proof.
  induction ds as [|d ds IH]; intros m N c I H; cbn [fold_left concat counted fold_right]; [rewrite app_nil_r, Z.add_0_r; auto|]. inversion H; subst.
  rewrite app_assoc, Z.add_assoc. apply IH; auto. apply s1_inv_update; auto.
Qed.
(** the length field *)
Lemma len_field w k l0 l1 N : (0 < k)%nat -> w = 8 * Z.of_nat k -> 0 <= l0 < 2 ^ w -> 0 <= l1 < 2 ^ w -> l1 * 2 ^ w + l0 = N mod (2 ^ w * 2 ^ w) ->
  write_be k (Z.lor (Z.shiftr l0 (w - 3)) (Z.shiftl l1 3 mod 2 ^ w)) ++ write_be k (Z.shiftl l0 3 mod 2 ^ w) = be_bytes (k + k) (8 * N).
Proof.
  intros Hk Hw H0 H1 E. rewrite !write_be_ok.
  assert (Ew : 2 ^ w = 256 ^ Z.of_nat k) by (rewrite Hw, Z.pow_mul_r by lia; reflexivity).
  assert (P3 : 2 ^ w = 2 ^ (w - 3) * 8) by (change 8 with (2 ^ 3); rewrite <- Z.pow_add_r by lia; f_equal; lia).
  assert (Pp : 0 < 2 ^ (w - 3)) by (apply Z.pow_pos_nonneg; lia).
  rewrite !Z.shiftl_mul_pow2, Z.shiftr_div_pow2 by lia. change (2 ^ 3) with 8.
  assert (Elor : Z.lor (l0 / 2 ^ (w - 3)) ((l1 * 8) mod 2 ^ w) = (l0 / 2 ^ (w - 3) + l1 * 8) mod 2 ^ w).
  { assert (Ed : (l1 * 8) mod 2 ^ w = (l1 mod 2 ^ (w - 3)) * 2 ^ 3) by (change (2 ^ 3) with 8; rewrite P3; apply Zmult_mod_distr_r).
    rewrite Ed. assert (Hd : 0 <= l0 / 2 ^ (w - 3) < 2 ^ 3) by (change (2 ^ 3) with 8; split; [apply Z.div_pos; lia|apply Z.div_lt_upper_bound; lia]).
    rewrite Z.lor_comm, lor_shifted_small by lia. rewrite <- Zplus_mod_idemp_r, Ed.
    assert (Hm : 0 <= l1 mod 2 ^ (w - 3) < 2 ^ (w - 3)) by (apply Z.mod_pos_bound; auto).
    change (2 ^ 3) with 8 in *. set (u := l1 mod 2 ^ (w - 3)) in *. set (h := l0 / 2 ^ (w - 3)) in *. rewrite (Z.mod_small (h + u * 8)); [apply Z.add_comm|]. rewrite P3. clear - Hd Hm. nia. }
  rewrite Elor. rewrite <- (be_bytes_val (be_bytes k _ ++ be_bytes k _)) by (apply bytes_app; split; apply be_bytes_bytes).
  rewrite app_length, !be_bytes_length. rewrite <- (be_bytes_mod (k + k) (8 * N)). f_equal.
  rewrite be_val_app, !be_val_bytes, be_bytes_length, <- !Ew. rewrite !Z.mod_mod by lia.
  assert (Ekk : 256 ^ Z.of_nat (k + k) = 2 ^ w * 2 ^ w) by (rewrite Nat2Z.inj_add, Z.pow_add_r, <- Ew by lia; reflexivity).
  rewrite Ekk. rewrite <- (Zmult_mod_idemp_r N 8), <- E.
  assert (Dm : l0 = 2 ^ (w - 3) * (l0 / 2 ^ (w - 3)) + l0 mod 2 ^ (w - 3)) by (apply Z.div_mod; lia).
  assert (Hm : 0 <= l0 mod 2 ^ (w - 3) < 2 ^ (w - 3)) by (apply Z.mod_pos_bound; auto).
  assert (E8 : (l0 * 8) mod 2 ^ w = (l0 mod 2 ^ (w - 3)) * 8) by (rewrite P3; apply Zmult_mod_distr_r).
  rewrite E8. set (h := l0 / 2 ^ (w - 3)) in *. set (l := l0 mod 2 ^ (w - 3)) in *.
  pose proof (Z.mod_pos_bound (h + l1 * 8) (2 ^ w) ltac:(lia)) as Hb. pose proof (Z.div_mod (h + l1 * 8) (2 ^ w) ltac:(lia)) as Db.
  clearbody h l. set (q := (h + l1 * 8) / 2 ^ w) in *. set (s := (h + l1 * 8) mod 2 ^ w) in *. clearbody q s. set (W := 2 ^ w) in *. set (V := 2 ^ (w - 3)) in *. clearbody W V.
  clear - Dm Hm Hb Db P3. assert (B1 : l * 8 < W) by lia. assert (B2 : s * W + W <= W * W) by (clear - Hb; nia). assert (B3 : 0 <= s * W) by (clear - Hb; nia).
  apply (Z.mod_unique _ _ q); [left; lia|]. replace (8 * (l1 * W + l0)) with (W * (h + l1 * 8) + 8 * l) by (rewrite Dm, P3; ring). rewrite Db. ring.
Qed.
Lemma pad_bytes n k : (n <= k)%nat -> bytes (firstn n (128 :: repeat 0 k)).
Proof. intro. apply bytes_firstn. constructor; [unfold byte; lia|apply bytes_repeat0]. Qed.
Lemma pad_cut n k : (0 < n <= S k)%nat -> firstn n (128 :: repeat 0 k) = 128 :: repeat 0 (n - 1).
Proof.
  intro H. destruct n as [|n]; [lia|]. cbn [firstn]. f_equal. replace k with (n + (k - n))%nat by lia. rewrite repeat_app, firstn_exact by apply repeat_length. f_equal. lia.
Qed.
Lemma s1_pad m N c : s1_inv m N c ->
  sha1_digest c = out_be 4 (iterate 64 sha1_compress H160 (pad_with 64 8 (be_bytes 8 (8 * N)) m)).
Proof.
  intros I. unfold sha1_digest. cbv zeta. rewrite (s1_left m N c I). set (i := (length m mod 64)%nat). assert (Hi : (i < 64)%nat) by (apply Nat.mod_upper_bound; lia).
  rewrite out_write_be. f_equal. 
  assert (EF : write_be 4 (Z.lor (Z.shiftr (s1_len0 c) 29) (Z.shiftl (s1_len1 c) 3 mod 2 ^ 32)) ++ write_be 4 (Z.shiftl (s1_len0 c) 3 mod 2 ^ 32) = be_bytes 8 (8 * N)).
  { destruct I as (F & H0 & H1 & E & M). apply (len_field 32 4); auto; lia. }
  rewrite EF. set (padlen := (if Nat.ltb i 56 then 56 - i else 120 - i)%nat).
  assert (Ep : padlen = (zeros_needed 64 8 (length m) + 1)%nat).
  { unfold padlen, zeros_needed. fold i. change (2 * 64 - 8 - 1)%nat with 119%nat. destruct (Nat.ltb_spec i 56).
    - replace (119 - i)%nat with ((55 - i) + 1 * 64)%nat by lia. rewrite Nat.mod_add, Nat.mod_small by lia. lia.
    - rewrite Nat.mod_small by lia. lia. }
  assert (Bp : (0 < padlen <= 64)%nat) by (unfold padlen; destruct (Nat.ltb_spec i 56); lia).
  pose proof (s1_inv_update _ _ _ _ I (bytes_firstn padlen (128 :: repeat 0 63) ltac:(constructor; [unfold byte; lia|apply bytes_repeat0]))) as I2.
  pose proof (s1_inv_update _ _ _ _ I2 (be_bytes_bytes 8 (8 * N))) as I3. destruct I3 as (F & _).
  set (M := (m ++ _) ++ _) in F. assert (EM : M = pad_with 64 8 (be_bytes 8 (8 * N)) m).
  { unfold M, pad_with. rewrite pad_cut by lia. rewrite Ep. rewrite <- app_assoc. replace (zeros_needed 64 8 (length m) + 1 - 1)%nat with (zeros_needed 64 8 (length m)) by lia. reflexivity. }
  assert (EL : (length M mod 64 = 0)%nat).
  { unfold M. rewrite !app_length, be_bytes_length, firstn_length_le by (cbn [length]; rewrite repeat_length; lia).
    pose proof (Nat.div_mod (length m) 64 ltac:(lia)) as D. fold i in D. unfold padlen. destruct (Nat.ltb_spec i 56).
    - replace (length m + (56 - i) + 8)%nat with ((length m / 64 + 1) * 64)%nat by lia. apply Nat.mod_mul. lia.
    - replace (length m + (120 - i) + 8)%nat with ((length m / 64 + 2) * 64)%nat by lia. apply Nat.mod_mul. lia. }
  rewrite EL in F. rewrite <- EM. apply ((A1 feeds_iterate) _ _ _ F).
Qed.
Theorem sha1_exact ds : Forall bytes ds -> sha1_digest (fold_left sha1_update ds sha1_init) =
  out_be 4 (iterate 64 sha1_compress H160 (pad_with 64 8 (be_bytes 8 (8 * counted ds)) (concat ds))).
Proof. intro H. apply (s1_pad (concat ds) (counted ds)). apply (s1_inv_updates ds [] 0 _ s1_inv_init H). Qed.
Theorem sha1_ok ds : Forall bytes ds -> Forall (fun d => Z.of_nat (length d) < 2 ^ 32) ds -> sha1_digest (fold_left sha1_update ds sha1_init) = SHA1 (concat ds).
Proof. intros H L. rewrite sha1_exact, counted_exact by auto. reflexivity. Qed.
