(** Proofs about the AES generator. *)
From Verif Require Import Base Lists BytesSpec Bytes Modes ModesModel Modes2 AesModel AesSpec Aes4 Wrap2 PrngModel PrngSpec Trivium.

Lemma ctr_inc_inc l : ctr_inc_rev l = inc_rest l.
Proof. induction l as [|b l IH]; [reflexivity|]. cbn. rewrite IH. reflexivity. Qed.
Lemma ctr_inc_ok v : ctr_inc (be_bytes 16 v) = be_bytes 16 (v + 1).
Proof.
  unfold ctr_inc, be_bytes. rewrite rev_involutive, ctr_inc_inc. f_equal. destruct (inc_rest_val (le_bytes 16 v) (le_bytes_bytes 16 v)) as (V & B & L). rewrite le_bytes_length in *.
  rewrite <- (le_bytes_val _ B), V, L, le_val_bytes, Z.add_mod_idemp_l by lia.
  rewrite <- (le_bytes_val (le_bytes 16 (v + 1)) (le_bytes_bytes _ _)), le_bytes_length, le_val_bytes. reflexivity.
Qed.

Section Stream.
Variables (k : list Z) (c0 : Z).
Let E := fips_cipher k.
Hypothesis EL : forall b, length b = 16%nat -> length (E b) = 16%nat.
Definition cblk (q : nat) : list Z := E (be_bytes 16 (c0 + Z.of_nat q)).
Definition at_pos (pos : nat) (p : prng) : Prop :=
  keyed k (paes p) /\ dec (paes p) = false /\ pix p = Nat.modulo pos 16 /\ pctr p = be_bytes 16 (c0 + Z.of_nat ((pos + 15) / 16)) /\
  (pix p <> 0%nat -> plo p = cblk (pos / 16)).
Lemma cblk_len q : length (cblk q) = 16%nat.
Proof. apply EL, be_bytes_length. Qed.
Lemma enc_ctr c q : keyed k c -> dec c = false -> aes_encrypt c (be_bytes 16 (c0 + Z.of_nat q)) = (c, cblk q).
Proof. intros K D. apply enc1; auto using be_bytes_length, be_bytes_bytes. Qed.
Lemma cblk_bytes q n : (n <= 16)%nat -> firstn n (cblk q) = map (ctr_byte E c0) (seq (16 * q) n).
Proof.
  intro H. apply (list_eq 0); [rewrite map_length, seq_length, firstn_length, cblk_len; lia|]. rewrite firstn_length, cblk_len. intros i Hi.
  rewrite nth_firstn_lt by lia. rewrite (nth_indep (map (ctr_byte E c0) (seq (16 * q) n)) 0 (ctr_byte E c0 0)) by (rewrite map_length, seq_length; lia). rewrite map_nth, seq_nth by lia.
  unfold ctr_byte. replace ((16 * q + i) mod 16)%nat with i by (rewrite Nat.mul_comm, Nat.add_comm, Nat.mod_add, Nat.mod_small; lia).
  replace ((16 * q + i) / 16)%nat with q by (rewrite Nat.mul_comm, Nat.add_comm, Nat.div_add, Nat.div_small; lia). reflexivity.
Qed.
Lemma divmod16 pos : (pos = 16 * (pos / 16) + Nat.modulo pos 16 /\ Nat.modulo pos 16 < 16)%nat.
Proof. split; [apply Nat.div_mod; lia|apply Nat.mod_upper_bound; lia]. Qed.
Lemma divmod16_uniq pos q r : (pos = 16 * q + r)%nat -> (r < 16)%nat -> (pos / 16 = q)%nat /\ Nat.modulo pos 16 = r.
Proof. intros H Hr. split; [symmetry; apply (Nat.div_unique pos 16 q r); lia|symmetry; apply (Nat.mod_unique pos 16 q r); lia]. Qed.
Lemma residual_ok lo siz : forall pos, (Nat.modulo pos 16 <> 0%nat -> lo = cblk (pos / 16)) ->
  exists m, prng_residual siz (Nat.modulo pos 16) lo = (map (ctr_byte E c0) (seq pos m), Nat.modulo (pos + m) 16, (siz - m)%nat) /\ (m <= siz)%nat /\
    ((m < siz)%nat -> Nat.modulo (pos + m) 16 = 0%nat) /\ (pos + m <= 16 * ((pos + 15) / 16))%nat.
Proof.
  induction siz as [|siz IH]; intros pos Hlo.
  - exists 0%nat. cbn [prng_residual seq map]. rewrite Nat.add_0_r. split; auto. split; auto. split; [lia|].
    destruct (divmod16 (pos + 15)). lia.
  - destruct (Nat.eq_dec (Nat.modulo pos 16) 0) as [Z0|N0].
    + exists 0%nat. rewrite Nat.add_0_r, Z0. cbn [prng_residual seq map]. split; auto. split; [lia|]. split; auto. destruct (divmod16 (pos + 15)). lia.
    + destruct (divmod16 pos) as [D1 D2]. set (q := (pos / 16)%nat) in *. set (r := Nat.modulo pos 16) in *.
      cbn [prng_residual]. destruct r as [|r'] eqn:Er; [lia|]. rewrite <- Er in *.
      destruct (Nat.eq_dec r 15) as [R15|R15].
      * replace ((r + 1) mod 16)%nat with 0%nat by (rewrite R15; reflexivity). exists 1%nat.
        destruct (divmod16_uniq (pos + 1) (q + 1) 0) as [_ M]; [lia|lia|]. rewrite M.
        assert (G : prng_residual siz 0 lo = ([], 0%nat, siz)) by (destruct siz; reflexivity). rewrite G. cbn [seq map]. rewrite Nat.sub_succ, Nat.sub_0_r.
        split; [f_equal; f_equal; f_equal; rewrite Hlo by lia; unfold ctr_byte; fold q; fold r; rewrite Er; reflexivity|].
        split; [lia|]. split; [auto|]. destruct (divmod16_uniq (pos + 15) (q + 1) 14) as [Q _]; [lia|lia|]. rewrite Q. lia.
      * destruct (divmod16_uniq (pos + 1) q (r + 1)) as [Q M]; [lia|lia|]. rewrite (Nat.mod_small (r + 1) 16) by lia.
        destruct (IH (pos + 1)%nat) as (m & Em & M1 & M2 & M3); [intros _; rewrite Q; apply Hlo; lia|]. rewrite M in Em. rewrite Em.
        exists (S m). replace (pos + S m)%nat with (pos + 1 + m)%nat by lia. cbn [seq map]. replace (S pos) with (pos + 1)%nat by lia.
        split; [rewrite Nat.sub_succ; f_equal; f_equal; f_equal; rewrite Hlo by lia; unfold ctr_byte; fold q; fold r; rewrite Er; reflexivity|].
        split; [lia|]. split; [intro; apply M2; lia|]. destruct (divmod16_uniq (pos + 15) (q + 1) (r - 1)) as [Q1 _]; [lia|lia|]. rewrite Q1.
        destruct (divmod16_uniq (pos + 1 + 15) (q + 1) r) as [Q2 _]; [lia|lia|]. lia.
Qed.
Lemma main_ok n : forall c q, keyed k c -> dec c = false ->
  prng_main n c (be_bytes 16 (c0 + Z.of_nat q)) = (map (ctr_byte E c0) (seq (16 * q) (16 * n)), c, be_bytes 16 (c0 + Z.of_nat (q + n))).
Proof.
  induction n as [|n IH]; intros c q K D; cbn [prng_main].
  - rewrite Nat.mul_0_r, Nat.add_0_r. reflexivity.
  - rewrite enc_ctr by auto. rewrite ctr_inc_ok. replace (c0 + Z.of_nat q + 1) with (c0 + Z.of_nat (q + 1)) by lia. rewrite IH by auto.
    replace (q + 1 + n)%nat with (q + S n)%nat by lia. f_equal. f_equal. replace (16 * S n)%nat with (16 + 16 * n)%nat by lia. rewrite seq_app, map_app.
    rewrite <- (cblk_bytes q 16) by apply Nat.le_refl. rewrite firstn_all2 by (rewrite cblk_len; apply Nat.le_refl). replace (16 * (q + 1))%nat with (16 * q + 16)%nat by lia. reflexivity.
Qed.
Lemma rand_step pos p siz : at_pos pos p -> exists p', prng_rand (Some p) siz = Ok (p', map (ctr_byte E c0) (seq pos siz)) /\ at_pos (pos + siz) p'.
Proof.
  intros (K & D & Hix & Hctr & Hlo). unfold prng_rand. cbn [bind]. rewrite Hix in *.
  destruct (residual_ok (plo p) siz pos Hlo) as (m & Em & M1 & M2 & M3). rewrite Em, Hctr. destruct (divmod16 pos) as [D1 D2]. destruct (divmod16 (pos + 15)) as [D3 D4].
  set (qc := ((pos + 15) / 16)%nat) in *. rewrite main_ok by auto.
  set (left := (siz - m)%nat). destruct (divmod16 left) as [L1 L2]. set (nb := (left / 16)%nat) in *. destruct (Nat.modulo left 16) as [|r'] eqn:Er.
  - eexists. split.
    + f_equal. f_equal. rewrite <- map_app. f_equal. destruct (Nat.eq_dec m siz) as [Ems|N].
      * subst m. assert (left = 0)%nat by lia. assert (nb = 0)%nat by lia. rewrite H0. rewrite Nat.mul_0_r, app_nil_r. reflexivity.
      * specialize (M2 ltac:(lia)). destruct (divmod16 (pos + m)) as [D5 _]. rewrite M2 in D5. assert (16 * qc = pos + m)%nat by lia. rewrite H, <- seq_app. f_equal. lia.
    + unfold at_pos. cbn [paes pix pctr plo]. split; auto. split; auto. destruct (Nat.eq_dec m siz) as [Ems|N].
      * subst m. assert (left = 0)%nat by lia. assert (nb = 0)%nat by lia. rewrite H0, Nat.add_0_r. split; auto. destruct (divmod16 (pos + siz)) as [D5 D6]. split.
        { f_equal. f_equal. f_equal. destruct (divmod16 (pos + siz + 15)) as [D7 D8]. lia. }
        intro NZ. rewrite Hlo; [f_equal|]; lia.
      * specialize (M2 ltac:(lia)). destruct (divmod16 (pos + m)) as [D5 _]. rewrite M2 in D5. assert (Eq : (16 * qc = pos + m)%nat) by lia.
        destruct (divmod16_uniq (pos + siz) (qc + nb) 0) as [U1 U2]; [lia|lia|]. destruct (divmod16_uniq (pos + siz + 15) (qc + nb) 15) as [U3 _]; [lia|lia|].
        rewrite M2, U2, U3. split; auto. split; auto. lia.
  - rewrite <- Er in *. assert (Hm : (m < siz)%nat) by lia. specialize (M2 Hm). destruct (divmod16 (pos + m)) as [D5 _]. rewrite M2 in D5. assert (Eq : (16 * qc = pos + m)%nat) by lia.
    rewrite enc_ctr by auto. eexists. split.
    + f_equal. f_equal. rewrite cblk_bytes by lia. rewrite <- !map_app. f_equal. rewrite Eq. replace (16 * (qc + nb))%nat with (pos + m + 16 * nb)%nat by lia. rewrite <- !seq_app. f_equal. lia.
    + unfold at_pos. cbn [paes pix pctr plo]. split; auto. split; auto.
      destruct (divmod16_uniq (pos + siz) (qc + nb) (Nat.modulo left 16)) as [U1 U2]; [lia|lia|]. destruct (divmod16_uniq (pos + siz + 15) (qc + nb + 1) (Nat.modulo left 16 - 1)) as [U3 _]; [lia|lia|].
      rewrite U1, U2, U3. split; auto. split; auto. rewrite ctr_inc_ok. f_equal. lia.
Qed.
Fixpoint pieces {A} (f : nat -> A) (pos : nat) (sizes : list nat) : list (list A) :=
  match sizes with [] => [] | n :: ns => map f (seq pos n) :: pieces f (pos + n) ns end.
Lemma rands_ok sizes : forall pos p, at_pos pos p -> prng_rands (Some p) sizes = Ok (pieces (ctr_byte E c0) pos sizes).
Proof.
  induction sizes as [|n ns IH]; intros pos p H; [reflexivity|]. cbn [prng_rands pieces]. destruct (rand_step pos p n H) as (p' & Er & H'). rewrite Er. cbn [bind]. rewrite (IH _ _ H'). reflexivity.
Qed.
End Stream.
Lemma concat_pieces {A} (f : nat -> A) sizes : forall pos, concat (pieces f pos sizes) = map f (seq pos (list_sum sizes)).
Proof.
  induction sizes as [|n ns IH]; intro pos; [reflexivity|]. cbn [pieces concat list_sum fold_right]. rewrite IH, <- map_app, <- seq_app. reflexivity.
Qed.
Lemma pieces_length {A} (f : nat -> A) sizes : forall pos, map (@length A) (pieces f pos sizes) = sizes.
Proof. induction sizes as [|n ns IH]; intro pos; [reflexivity|]. cbn [pieces map]. rewrite map_length, seq_length, IH. reflexivity. Qed.
Lemma seed_part0 seed : firstn (Nat.min (length seed) 16) seed ++ repeat 0 (16 - Nat.min (length seed) 16) = firstn 16 (seed ++ repeat 0 16).
Proof.
  rewrite firstn_app. destruct (Nat.le_gt_cases 16 (length seed)).
  - rewrite Nat.min_r by lia. replace (16 - length seed)%nat with 0%nat by lia. reflexivity.
  - rewrite Nat.min_l by lia. rewrite firstn_all, (firstn_all2 seed) by lia. f_equal. rewrite <- (firstn_skipn (16 - length seed) (repeat 0 16)) at 1.
    generalize (16 - length seed)%nat (ltac:(lia) : (16 - length seed <= 16)%nat). clear. intros n H. do 17 (destruct n as [|n]; [reflexivity|]). lia.
Qed.
Lemma seed_bytes j seed : bytes seed -> bytes (seed_part j seed) /\ length (seed_part j seed) = 16%nat.
Proof.
  intro H. unfold seed_part. split.
  - apply bytes_firstn. apply Forall_app. split; [apply bytes_skipn; auto|apply bytes_zero].
  - rewrite firstn_length, app_length, repeat_length. lia.
Qed.
Lemma init_ok lo seed : bytes seed -> exists p, prng_init lo seed = Ok p /\ at_pos (seed_part 0 seed) (be_val (seed_part 1 seed)) 0 p.
Proof.
  intro H. destruct (seed_bytes 0 seed H) as [B0 L0]. destruct (seed_bytes 1 seed H) as [B1 L1]. unfold prng_init. rewrite seed_part0. change (firstn 16 (seed ++ repeat 0 16)) with (seed_part 0 seed).
  destruct (key_set_keyed _ B0 ltac:(lia)) as (c & Ec & Dc & K). rewrite Ec. cbn [bind]. eexists. split; [reflexivity|].
  unfold at_pos. cbn [paes pix pctr plo]. rewrite L0 in K. change (aes_size 16) with 16%nat in K. rewrite <- L0, firstn_all in K. split; auto. split; auto. split; [reflexivity|]. split; [|congruence].
  rewrite seed_part0. change ((0 + 15) / 16)%nat with 0%nat. rewrite Z.add_0_r. transitivity (seed_part 1 seed); [|rewrite <- (be_bytes_val (seed_part 1 seed) B1) at 1; rewrite L1; reflexivity].
  unfold seed_part. f_equal. f_equal. change (16 * 1)%nat with 16%nat. destruct (Nat.le_gt_cases 16 (length seed)); [rewrite Nat.min_r by lia; reflexivity|]. rewrite Nat.min_l by lia. rewrite !skipn_all2 by lia. reflexivity.
Qed.
Lemma seed_cipher_len seed b : bytes seed -> length b = 16%nat -> length (fips_cipher (seed_part 0 seed) b) = 16%nat.
Proof.
  intros H. destruct (seed_bytes 0 seed H) as [B0 L0]. destruct (aes_cipher (seed_part 0 seed) B0 ltac:(lia)) as (X & _). rewrite L0 in X. change (aes_size 16) with 16%nat in X. rewrite <- L0, firstn_all in X. rewrite L0 in X. apply X.
Qed.
(** * The statement *)
Lemma prng_stream lo seed sizes : bytes seed -> exists p outs, prng_init lo seed = Ok p /\ prng_rands (Some p) sizes = Ok outs /\ map (@length Z) outs = sizes /\
  concat outs = map (ctr_byte (fips_cipher (seed_part 0 seed)) (be_val (seed_part 1 seed))) (seq 0 (list_sum sizes)).
Proof.
  intro H. destruct (init_ok lo seed H) as (p & Ep & P). exists p. eexists. split; auto. split; [apply (rands_ok _ _ (fun b => seed_cipher_len seed b H) _ _ _ P)|].
  split; [apply pieces_length|apply concat_pieces].
Qed.
Lemma prng_uninit sizes : sizes <> [] -> exists p outs, prng_init (repeat 0 16) [] = Ok p /\ prng_rands (Some p) sizes = Ok outs /\ prng_rands None sizes = Ok outs.
Proof.
  intro N. destruct (prng_stream (repeat 0 16) [] sizes (Forall_nil _)) as (p & outs & E & R & _). exists p, outs. split; auto. split; auto.
  destruct sizes as [|n ns]; [congruence|]. rewrite <- R. cbn [prng_rands]. replace (prng_rand None n) with (prng_rand (Some p) n); [reflexivity|]. unfold prng_rand. rewrite E. reflexivity.
Qed.
