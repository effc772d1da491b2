(** CFB, CTR, GCM and ARC4 on a flat memory. *)
From Verif Require Import Base Bits Lists Bytes BytesSpec MemxorModel Memxor ModesModel ModesSpec Modes Modes2 GcmModel Arc4Model BufModel BufSpec Buf BufModes.

Section Cfb.
Variable n : nat.
Hypothesis Hn : (0 < n)%nat.
Variable E : list Z -> list Z.
Hypothesis LE : forall b, length b = n -> length (E b) = n.
Let LEr : forall m a, length (E (read m a n)) = n := fun m a => LE _ (read_length m a n).

(** one block of [z] <= n bytes *)
Lemma cfb_block V T m d s z : (0 < z <= n)%nat -> sep V n d n ->
  exists m', (do m <- memxor2 T (crypt_m 1 n E m V V) d s V z; memcpy m V d n) = Ok m' /\
    (sep V n s z -> read m' d z = xorl (read m s z) (E (read m V n))) /\
    (z = n -> read m' V n = read m' d n) /\
    forall x, outside x d z -> outside x V n -> m' x = m x.
Proof.
  intros Hz SV. pose proof (crypt1_puts n E m V V) as P1. set (m1 := crypt_m 1 n E m V V) in *. clearbody m1.
  pose proof (LEr m V) as L1. set (e := E (read m V n)) in *. clearbody e.
  destruct (memxor2_puts T m1 d s V z) as (m2 & E2 & P2); [plc|]. rewrite E2. cbn [bind].
  assert (L2 : length (xorl (read m1 s z) (read m1 V z)) = z) by (rewrite xorl_length_eq; now rewrite ?read_length).
  destruct (memcpy_puts m2 V d n) as (m3 & E3 & P3); [plc|].
  exists m3. split; [exact E3|]. split; [|split].
  - intros SVs. rewrite (puts_frame _ _ _ _ _ _ P3) by (rewrite read_length; plc).
    rewrite (puts_read_n _ _ _ _ z P2) by auto. rewrite (puts_frame _ _ _ _ s z P1) by (rewrite L1; plc).
    rewrite <- (read_firstn m1 V n z) by lia. rewrite (puts_read_n _ _ _ _ n P1) by auto.
    rewrite <- (xorl_firstn_r (read m s z) e), read_length. reflexivity.
  - intros Q. rewrite (puts_read_n _ _ _ _ n P3) by (now rewrite read_length).
    symmetry. apply (puts_frame _ _ _ _ _ _ P3). rewrite read_length. plc.
  - intros x O1 O2. rewrite (puts_out _ _ _ _ _ P3) by (now rewrite read_length). rewrite (puts_out _ _ _ _ _ P2) by (now rewrite L2).
    apply (puts_out _ _ _ _ _ P1). now rewrite L1.
Qed.
Lemma cfb_mem V T r : (r < n)%nat -> forall k fuel m d s, (k <= fuel)%nat -> forward d s (k * n + r) ->
  sep V n d (k * n + r + n) -> sep V n s (k * n + r) ->
  exists m', cfb_crypt_m fuel E n V T m d s (k * n + r) = Ok m' /\
    read m' d (k * n + r) = concat (cfb_spec E (read m V n) (chunks n (read m s (k * n + r)))) /\
    (r = O -> read m' V n = last (cfb_spec E (read m V n) (chunks n (read m s (k * n + r)))) (read m V n)) /\
    forall x, outside x d (k * n + r) -> outside x V n -> m' x = m x.
Proof.
  intros Hr. induction k as [|k IH]; intros fuel m d s Hf F Sd Ss.
  - cbn [Nat.mul Nat.add] in *. assert (C : (n <=? r)%nat = false) by (apply Nat.leb_gt; lia).
    destruct (Nat.eq_dec r 0) as [->|N].
    + exists m. split; [destruct fuel; cbn [cfb_crypt_m]; rewrite C; reflexivity|]. repeat split; auto.
    + destruct (cfb_block V T m d s r) as (m' & E1 & A1 & A2 & A3); [lia|plc|].
      exists m'. split; [destruct fuel; cbn [cfb_crypt_m]; rewrite C; (destruct (Nat.eqb_spec r 0); [lia|]); exact E1|].
      rewrite chunks_short by (rewrite ?read_length; lia). cbn [cfb_spec concat]. rewrite app_nil_r.
      split; [apply A1; plc|]. split; [lia|]. exact A3.
  - destruct fuel as [|fuel]; [lia|]. cbn [cfb_crypt_m].
    destruct (Nat.leb_spec n (S k * n + r)) as [_|C]; [|cbn [Nat.mul] in C; lia].
    cbn [Nat.mul] in *. set (w := (k * n)%nat) in *.
    destruct (cfb_block V T m d s n) as (m1 & E1 & A1 & A2 & A3); [lia|plc|].
    destruct (memxor2 T (crypt_m 1 n E m V V) d s V n) as [mm| | |] eqn:Q; try discriminate E1. cbn [bind] in *. rewrite E1. cbn [bind].
    replace (n + w + r - n)%nat with (w + r)%nat by lia.
    destruct (IH fuel m1 (d + Z.of_nat n) (s + Z.of_nat n)) as (m' & E2 & B1 & B2 & B3); [lia|plc|plc|plc|].
    specialize (A1 ltac:(plc)). specialize (A2 eq_refl).
    exists m'. split; [exact E2|].
    replace (n + w + r)%nat with (n + (w + r))%nat by lia. rewrite (read_app m' n d), (read_app m n s).
    rewrite chunks_app by (auto; apply read_length). cbn [cfb_spec concat]. rewrite <- A1.
    assert (S1 : read m1 (s + Z.of_nat n) (w + r) = read m (s + Z.of_nat n) (w + r)) by (apply read_ext; intros x Hx; apply A3; plc).
    rewrite S1, A2 in B1, B2.
    split; [|split].
    + f_equal; [|exact B1]. apply read_ext. intros x Hx. apply B3; plc.
    + intros R0. rewrite last_cons. apply B2. exact R0.
    + intros x O1 O2. rewrite B3 by plc. apply A3; plc.
Qed.

(** * 8-bit CFB *)
Lemma put_puts m a v : puts m (put m a v) a [v].
Proof. exact (write_puts [v] m a). Qed.
Lemma read_upd m m' B i c L : puts m m' (B + Z.of_nat i) [c] -> (i < L)%nat -> read m' B L = upd (read m B L) i c.
Proof.
  intros P H. apply (list_eq 0); [now rewrite upd_length, !read_length|]. rewrite read_length. intros j Hj.
  rewrite read_nth by auto. rewrite nth_upd by (now rewrite read_length). destruct (Nat.eqb_spec j i) as [->|N].
  - pose proof (puts_in _ _ _ _ O P) as G. cbn [length nth] in G. rewrite <- G by lia. f_equal. lia.
  - rewrite read_nth by auto. apply (puts_out _ _ _ _ _ P). cbn [length]. plc.
Qed.
Lemma read_1 m a : read m a 1 = [m a].
Proof. unfold read. cbn [seq map]. do 2 f_equal. lia. Qed.

Lemma cfb8_enc_mem V B : sep V n B (2 * n) -> forall len m pos d s, (pos <= n)%nat -> forward d s len -> sep V n d len -> sep V n s len ->
  sep B (2 * n) d len -> sep B (2 * n) s len ->
  exists m' pos', cfb8_enc_m len E n V B m pos d s = Ok (pos', m') /\ (pos' <= n)%nat /\
    cfb8_enc_f E n (read m B (2 * n)) pos (read m s len) = (read m' B (2 * n), pos', read m' d len) /\
    forall x, outside x d len -> outside x V n -> outside x B (2 * n) -> m' x = m x.
Proof.
  intros SVB. induction len as [|len IH]; intros m pos d s Hp F SVd SVs SBd SBs.
  - exists m, pos. cbn [cfb8_enc_m cfb8_enc_f read seq map]. repeat split; auto.
  - cbn [cfb8_enc_m]. rewrite (read_S m s len). cbn [cfb8_enc_f].
    assert (ST : exists m1 p1, (if Nat.eqb pos n then do m <- memcpy m B (B + Z.of_nat n) n; Ok (O, m) else Ok (pos, m)) = Ok (p1, m1) /\ (p1 < n)%nat /\
      (if Nat.eqb pos n then (skipn n (read m B (2 * n)) ++ skipn n (read m B (2 * n)), O) else (read m B (2 * n), pos)) = (read m1 B (2 * n), p1) /\
      forall x, outside x B (2 * n) -> m1 x = m x).
    { destruct (Nat.eqb_spec pos n) as [->|N].
      - destruct (memcpy_puts m B (B + Z.of_nat n) n) as (m1 & E1 & P1); [plc|]. rewrite E1. cbn [bind].
        exists m1, O. split; [reflexivity|]. split; [lia|]. split.
        + f_equal. rewrite read_skipn by lia. replace (2 * n - n)%nat with n by lia. replace (2 * n)%nat with (n + n)%nat by lia.
          rewrite read_app. f_equal.
          * symmetry. apply (puts_read_n _ _ _ _ n P1). now rewrite read_length.
          * symmetry. apply (puts_frame _ _ _ _ _ _ P1). rewrite read_length. plc.
        + intros x O. apply (puts_out _ _ _ _ _ P1). rewrite read_length. plc.
      - exists m, pos. repeat split; auto. lia. }
    destruct ST as (m1 & p1 & E1 & Hp1 & Q1 & F1). rewrite E1, Q1. cbn [bind]. clear E1 Q1 pos Hp.
    pose proof (crypt1_puts n E m1 V (B + Z.of_nat p1)) as P2. set (m2 := crypt_m 1 n E m1 V (B + Z.of_nat p1)) in *.
    rewrite read_skipn by lia. rewrite read_firstn by lia.
    pose proof (LEr m1 (B + Z.of_nat p1)) as L2. set (v := E (read m1 (B + Z.of_nat p1) n)) in *. clearbody v m2.
    assert (A1 : m2 V = nth 0 v 0) by (rewrite <- (puts_in _ _ _ _ O P2) by lia; f_equal; lia).
    assert (A2 : m2 s = m s) by (rewrite (puts_out _ _ _ _ _ P2) by (rewrite L2; plc); apply F1; plc).
    rewrite A1, A2. set (c := Z.lxor (m s) (nth 0 v 0)).
    pose proof (put_puts m2 d c) as P3. set (m3 := put m2 d c) in *.
    pose proof (put_puts m3 (B + Z.of_nat p1 + Z.of_nat n) c) as P4. set (m4 := put m3 (B + Z.of_nat p1 + Z.of_nat n) c) in *. clearbody m3 m4 c.
    destruct (IH m4 (S p1) (d + 1) (s + 1)) as (m' & pos' & E5 & Hp5 & Q5 & F5); [lia|plc|plc|plc|plc|plc|].
    exists m', pos'. split; [exact E5|]. split; [exact Hp5|].
    assert (RB : read m4 B (2 * n) = upd (read m1 B (2 * n)) (p1 + n) c).
    { replace (B + Z.of_nat p1 + Z.of_nat n) with (B + Z.of_nat (p1 + n)) in P4 by lia.
      rewrite (read_upd _ _ _ _ _ _ P4) by lia. f_equal.
      rewrite (puts_frame _ _ _ _ _ _ P3) by (cbn [length]; plc). apply (puts_frame _ _ _ _ _ _ P2). rewrite L2. plc. }
    assert (RS : read m4 (s + 1) len = read m (s + 1) len).
    { rewrite (puts_frame _ _ _ _ _ _ P4) by (cbn [length]; plc). rewrite (puts_frame _ _ _ _ _ _ P3) by (cbn [length]; plc).
      rewrite (puts_frame _ _ _ _ _ _ P2) by (rewrite L2; plc). apply read_ext. intros x Hx. apply F1. plc. }
    rewrite RB, RS in Q5. rewrite Q5. split.
    + f_equal. rewrite read_S. f_equal. rewrite F5 by plc. rewrite (puts_out _ _ _ _ _ P4) by (cbn [length]; plc).
      pose proof (puts_in _ _ _ _ O P3) as G. cbn [length nth] in G. rewrite <- G by lia. f_equal. lia.
    + intros x O1 O2 O3. rewrite F5 by plc. rewrite (puts_out _ _ _ _ _ P4) by (cbn [length]; plc).
      rewrite (puts_out _ _ _ _ _ P3) by (cbn [length]; plc). rewrite (puts_out _ _ _ _ _ P2) by (now rewrite L2). apply F1. auto.
Qed.
Lemma cfb8_encrypt_mem V B m d s len : (n <= 16)%nat -> sep V n B (2 * n) -> forward d s len -> sep V n d len -> sep V n s len ->
  sep B (2 * n) d len -> sep B (2 * n) s len ->
  exists m', cfb8_encrypt_m E n V B m d s len = Ok m' /\
    read m' d len = cfb8_spec E (read m V n) (read m s len) /\
    read m' V n = shift_in n (read m V n) (cfb8_spec E (read m V n) (read m s len)) /\
    forall x, outside x d len -> outside x V n -> outside x B (2 * n) -> m' x = m x.
Proof.
  intros N16 SVB F SVd SVs SBd SBs. unfold cfb8_encrypt_m.
  destruct (memcpy_puts m B V n) as (m1 & E1 & P1); [plc|]. rewrite E1. cbn [bind].
  destruct (cfb8_enc_mem V B SVB len m1 0 d s) as (m2 & pos & E2 & Hp & Q2 & F2); try (plc; fail). rewrite E2. cbn [bind].
  destruct (memcpy_puts m2 V (B + Z.of_nat pos) n) as (m3 & E3 & P3); [plc|].
  exists m3. split; [exact E3|].
  assert (R1 : read m1 B (2 * n) = read m V n ++ read m (B + Z.of_nat n) n).
  { replace (2 * n)%nat with (n + n)%nat by lia. rewrite read_app. f_equal.
    - apply (puts_read_n _ _ _ _ n P1). now rewrite read_length.
    - apply (puts_frame _ _ _ _ _ _ P1). rewrite read_length. plc. }
  rewrite R1 in Q2. rewrite (puts_frame _ _ _ _ s len P1) in Q2 by (rewrite read_length; plc).
  pose proof (cfb8_encrypt_ok E (read m (B + Z.of_nat n) n) (read m V n) (read m s len)) as G. rewrite read_length in G.
  specialize (G ltac:(lia)). cbn zeta in G. unfold cfb8_encrypt, cfb_iv_set in G. cbn [cfb_v cfb_len] in G.
  rewrite read_length in G. rewrite Nat.min_r in G by auto. rewrite read_firstn in G by auto.
  rewrite firstn_app, read_length, Nat.sub_diag, firstn_O, app_nil_r, read_firstn in G by auto.
  rewrite Q2 in G. injection G as G1 G2. rewrite <- G1, <- G2. split; [|split].
  - rewrite (puts_frame _ _ _ _ _ _ P3) by (rewrite read_length; plc). reflexivity.
  - rewrite (puts_read_n _ _ _ _ n P3) by (now rewrite read_length). rewrite read_skipn by lia. rewrite read_firstn by lia. reflexivity.
  - intros x O1 O2 O3. rewrite (puts_out _ _ _ _ _ P3) by (now rewrite read_length). rewrite F2 by auto.
    apply (puts_out _ _ _ _ _ P1). rewrite read_length. plc.
Qed.

Lemma keys_mem k : forall m a b, sep a (k + n) b (k + n) ->
  read (cfb8_keys_m k E n m a b) a k = map (fun j => nth 0 (E (read m (b + Z.of_nat j) n)) 0) (seq 0 k) /\
  forall x, outside x a (k + n) -> cfb8_keys_m k E n m a b x = m x.
Proof.
  induction k as [|k IH]; intros m a b SP.
  - cbn [cfb8_keys_m]. split; auto.
  - change (cfb8_keys_m (S k) E n m a b) with (cfb8_keys_m k E n (crypt_m 1 n E m a b) (a + 1) (b + 1)).
    pose proof (crypt1_puts n E m a b) as P1. pose proof (LEr m b) as L1.
    destruct (IH (crypt_m 1 n E m a b) (a + 1) (b + 1)) as [A1 A2]; [plc|].
    assert (FB : forall j, (j < k)%nat -> read (crypt_m 1 n E m a b) (b + 1 + Z.of_nat j) n = read m (b + Z.of_nat (S j)) n).
    { intros j Hj. rewrite (puts_frame _ _ _ _ _ _ P1) by (rewrite L1; plc). f_equal. lia. }
    set (m1 := crypt_m 1 n E m a b) in *. clearbody m1. set (m2 := cfb8_keys_m k E n m1 (a + 1) (b + 1)) in *. clearbody m2.
    split.
    + cbn [seq map]. rewrite read_S. f_equal.
      * replace (b + Z.of_nat 0) with b by lia. rewrite <- (puts_in _ _ _ _ O P1) by lia.
        replace (a + Z.of_nat 0) with a by lia. apply A2. plc.
      * rewrite A1. rewrite <- seq_shift, map_map. apply map_ext_in. intros j Hj. apply in_seq in Hj. now rewrite FB by lia.
    + intros x O. rewrite A2 by plc. apply (puts_out _ _ _ _ _ P1). rewrite L1. plc.
Qed.
Lemma cfb8_dec_mem B W T : sep B (2 * n) W (2 * n) -> forall fuel len m i d s b j o, (i <= n)%nat -> forward d s len ->
  sep B (2 * n) d len -> sep B (2 * n) s len -> sep W (2 * n) d len -> sep W (2 * n) s len ->
  cfb8_dec_f fuel E n (read m B (2 * n)) i (read m s len) = Ok (b, j, o) ->
  exists m', cfb8_dec_m fuel E n B W T m i d s len = Ok (j, m') /\ read m' B (2 * n) = b /\ read m' d len = o /\ (j <= n)%nat /\
    forall x, outside x d len -> outside x B (2 * n) -> outside x W (2 * n) -> m' x = m x.
Proof.
  intros SBW. induction fuel as [|fuel IH]; intros len m i d s b j o Hi F SBd SBs SWd SWs Q.
  - destruct len as [|len].
    + injection Q as <- <- <-. exists m. cbn [cfb8_dec_m Nat.eqb]. repeat split; auto.
    + rewrite read_S in Q. discriminate Q.
  - destruct len as [|len].
    + injection Q as <- <- <-. exists m. cbn [cfb8_dec_m Nat.eqb]. repeat split; auto.
    + cbn [cfb8_dec_m]. cbn [Nat.eqb]. set (L := S len) in *. assert (HL : (0 < L)%nat) by (unfold L; lia).
      assert (NE : exists y r, read m s L = y :: r) by (unfold L; rewrite read_S; eauto).
      cbn [cfb8_dec_f] in Q. destruct NE as (y & r & NE). rewrite NE in Q. rewrite <- NE in Q. clear y r NE. clearbody L. clear len.
      rewrite read_length in Q. set (q := Nat.min n L) in *. replace (Nat.min L n) with q by (unfold q; lia).
      assert (Hq : (0 < q <= n)%nat /\ (q <= L)%nat) by (unfold q; lia). clearbody q. clear Hi i.
      destruct (keys_mem q m W B) as [K1 K2]; [plc|]. set (m1 := cfb8_keys_m q E n m W B) in *. clearbody m1.
      destruct (memxor2_puts T m1 d s W q) as (m2 & E2 & P2); [plc|]. rewrite E2. cbn [bind].
      assert (L2 : length (xorl (read m1 s q) (read m1 W q)) = q) by (rewrite xorl_length_eq; now rewrite ?read_length).
      destruct (memcpy_puts m2 B (B + Z.of_nat n) n) as (m3 & E3 & P3); [plc|]. rewrite E3. cbn [bind].
      destruct (memcpy_puts m3 (B + Z.of_nat n) (s + Z.of_nat q) (Nat.min (L - q) n)) as (m4 & E4 & P4); [plc|]. rewrite E4. cbn [bind].
      assert (FG : firstn n (read m (s + Z.of_nat q) (L - q)) = read m (s + Z.of_nat q) (Nat.min (L - q) n)).
      { destruct (Nat.min_spec (L - q) n) as [[U ->]|[U ->]]; [|now rewrite read_firstn by auto].
        rewrite firstn_all2 by (rewrite read_length; lia). reflexivity. }
      set (g := Nat.min (L - q) n) in *. assert (Hg : (g <= n)%nat /\ (g <= L - q)%nat) by (unfold g; lia). clearbody g.
      assert (S1 : read m1 s q = read m s q) by (apply read_ext; intros x Hx; apply K2; plc).
      assert (F4 : forall x, outside x d q -> outside x B (2 * n) -> outside x W (2 * n) -> m4 x = m x).
      { intros x O1 O2 O3. rewrite (puts_out _ _ _ _ _ P4) by (rewrite read_length; plc).
        rewrite (puts_out _ _ _ _ _ P3) by (rewrite read_length; plc). rewrite (puts_out _ _ _ _ _ P2) by (now rewrite L2).
        apply K2. plc. }
      rewrite S1, K1 in P2, L2.
      assert (KK : map (fun j => nth 0 (E (read m (B + Z.of_nat j) n)) 0) (seq 0 q) = cfb8_keys E n (read m B (2 * n)) q).
      { unfold cfb8_keys. apply map_ext_in. intros a Ha. apply in_seq in Ha. rewrite read_skipn, read_firstn by lia. reflexivity. }
      rewrite KK in P2, L2.
      assert (B2 : read m2 (B + Z.of_nat n) n = read m (B + Z.of_nat n) n).
      { rewrite (puts_frame _ _ _ _ _ _ P2) by (rewrite L2; plc). apply read_ext. intros x Hx. apply K2. plc. }
      rewrite B2 in P3.
      assert (S3 : read m3 (s + Z.of_nat q) g = read m (s + Z.of_nat q) g).
      { rewrite (puts_frame _ _ _ _ _ _ P3) by (rewrite read_length; plc). rewrite (puts_frame _ _ _ _ _ _ P2) by (rewrite L2; plc).
        apply read_ext. intros x Hx. apply K2. plc. }
      rewrite S3 in P4.
      assert (R4 : read m4 B (2 * n) = cfb8_fill n (skipn n (read m B (2 * n)) ++ skipn n (read m B (2 * n))) (skipn q (read m s L))).
      { unfold cfb8_fill. rewrite !read_skipn by lia. replace (2 * n - n)%nat with n by lia.
        rewrite firstn_app, read_length, Nat.sub_diag, firstn_O, app_nil_r, read_firstn by lia.
        replace (2 * n)%nat with (n + n)%nat by lia. rewrite (read_app m4). f_equal.
        - rewrite (puts_frame _ _ _ _ _ _ P4) by (rewrite read_length; plc). apply (puts_read_n _ _ _ _ n P3). now rewrite read_length.
        - rewrite FG. rewrite read_length. rewrite skipn_app, read_length. rewrite (skipn_all2 (read m (B + Z.of_nat n) n)) by (rewrite read_length; lia).
          cbn [app]. replace (n + g - n)%nat with g by lia. rewrite read_skipn by lia.
          replace n with (g + (n - g))%nat at 2 by lia. rewrite read_app. f_equal.
          + apply (puts_read_n _ _ _ _ g P4). now rewrite read_length.
          + rewrite (puts_frame _ _ _ _ _ _ P4) by (rewrite read_length; plc). rewrite (puts_frame _ _ _ _ _ _ P3) by (rewrite read_length; plc).
            rewrite (puts_frame _ _ _ _ _ _ P2) by (rewrite L2; plc). apply read_ext. intros x Hx. apply K2. plc. }
      rewrite <- R4 in Q. rewrite (read_firstn m s L q) in Q by lia. rewrite (read_skipn m s L q) in Q by lia.
      assert (S4 : read m4 (s + Z.of_nat q) (L - q) = read m (s + Z.of_nat q) (L - q)) by (apply read_ext; intros x Hx; apply F4; plc).
      rewrite <- S4 in Q.
      destruct (cfb8_dec_f fuel E n (read m4 B (2 * n)) q (read m4 (s + Z.of_nat q) (L - q))) as [[[b' j'] r]| | |] eqn:Q'; try discriminate Q.
      cbn [bind] in Q. injection Q as -> -> <-.
      destruct (IH (L - q)%nat m4 q (d + Z.of_nat q) (s + Z.of_nat q) b j r) as (m' & E5 & A1 & A2 & A3 & A4); auto; try plc.
      exists m'. split; [exact E5|]. split; [exact A1|]. split; [|split; [exact A3|]].
      * replace (read m' d L) with (read m' d (q + (L - q))) by (f_equal; lia). rewrite read_app. f_equal; [|exact A2].
        change (n + (n + 0))%nat with (2 * n)%nat. rewrite <- (puts_read_n _ _ _ _ q P2) by auto. rewrite <- (puts_frame _ _ _ _ d q P3) by (rewrite read_length; plc).
        rewrite <- (puts_frame _ _ _ _ d q P4) by (rewrite read_length; plc). apply read_ext. intros x Hx. apply A4; plc.
      * intros x O1 O2 O3. rewrite A4 by plc. apply F4; plc.
Qed.

Lemma cfb8_decrypt_mem B W T V m d s len : (n <= 16)%nat -> sep B (2 * n) W (2 * n) -> forward d s len -> sep B (2 * n) d len -> sep B (2 * n) s len ->
  sep W (2 * n) d len -> sep W (2 * n) s len -> sep V n B (2 * n) -> sep V n W (2 * n) -> sep V n d len -> sep V n s len ->
  exists m', cfb8_decrypt_m E n V B W T m d s len = Ok m' /\ read m' d len = cfb8_dec_spec E (read m V n) (read m s len) /\
    (whole n (read m s len) -> read m' V n = shift_in n (read m V n) (read m s len)) /\
    forall x, outside x d len -> outside x B (2 * n) -> outside x W (2 * n) -> outside x V n -> m' x = m x.
Proof.
  intros N16 SBW F SBd SBs SWd SWs SVB SVW SVd SVs. unfold cfb8_decrypt_m.
  destruct (memcpy_puts m B V n) as (m1 & E1 & P1); [plc|]. rewrite E1. cbn [bind].
  assert (FG : firstn n (read m s len) = read m s (Nat.min len n)).
  { destruct (Nat.min_spec len n) as [[U ->]|[U ->]]; [|now rewrite read_firstn by auto].
    rewrite firstn_all2 by (rewrite read_length; lia). reflexivity. }
  destruct (memcpy_puts m1 (B + Z.of_nat n) s (Nat.min len n)) as (m2 & E2 & P2); [plc|]. rewrite E2. cbn [bind].
  set (g := Nat.min len n) in *. assert (Hg : (g <= n)%nat /\ (g <= len)%nat) by (unfold g; lia). clearbody g.
  set (junk := read m (B + Z.of_nat n) n).
  assert (LV : length (read m V n) = n) by apply read_length.
  assert (SS : read m1 s g = read m s g) by (apply (puts_frame _ _ _ _ _ _ P1); rewrite read_length; plc).
  rewrite SS in P2.
  assert (S2 : read m2 s len = read m s len).
  { rewrite (puts_frame _ _ _ _ _ _ P2) by (rewrite read_length; plc). apply (puts_frame _ _ _ _ _ _ P1). rewrite read_length. plc. }
  assert (R2 : read m2 B (2 * n) = cfb8_fill n (read m V n ++ firstn n (junk ++ repeat 0 n)) (read m s len)).
  { unfold cfb8_fill. rewrite (firstn_app n (read m V n)), LV, Nat.sub_diag, firstn_O, app_nil_r, (firstn_all2 (read m V n)) by lia.
    replace (2 * n)%nat with (n + n)%nat by lia. rewrite (read_app m2). f_equal.
    - rewrite (puts_frame _ _ _ _ _ _ P2) by (rewrite read_length; plc). apply (puts_read_n _ _ _ _ n P1). auto.
    - rewrite FG, read_length, skipn_app, LV, (skipn_all2 (read m V n)) by lia. cbn [app]. replace (n + g - n)%nat with g by lia.
      rewrite firstn_app. unfold junk at 1 2. rewrite read_length, Nat.sub_diag, firstn_O, app_nil_r, read_firstn by lia. rewrite read_skipn by lia.
      replace n with (g + (n - g))%nat at 2 by lia. rewrite read_app. f_equal.
      + apply (puts_read_n _ _ _ _ g P2). now rewrite read_length.
      + rewrite (puts_frame _ _ _ _ _ _ P2) by (rewrite read_length; plc). apply (puts_frame _ _ _ _ _ _ P1). rewrite read_length; plc. }
  destruct (cfb8_decrypt_ok E junk (read m V n) (read m s len)) as (c & Q & _ & WV); [lia|].
  assert (IS : cfb_iv_set (read m V n) = {| cfb_v := read m V n; cfb_len := n |}).
  { unfold cfb_iv_set. rewrite LV. f_equal; try lia. rewrite firstn_all2; auto. lia. }
  rewrite IS in Q. unfold cfb8_decrypt in Q. cbn [cfb_len cfb_v] in Q. rewrite read_length in Q. rewrite <- R2, <- S2 in Q.
  destruct (cfb8_dec_f (S len) E n (read m2 B (2 * n)) 0 (read m2 s len)) as [[[b j] o]| | |] eqn:D; try discriminate Q. cbn [bind] in Q.
  destruct (cfb8_dec_mem B W T SBW (S len) len m2 0 d s b j o) as (m3 & E3 & A1 & A2 & A3 & A4); auto; try lia.
  rewrite E3. cbn [bind]. destruct (memcpy_puts m3 V (B + Z.of_nat j) n) as (m4 & E4 & P4); [plc|].
  exists m4. split; [exact E4|]. assert (Q1 := f_equal (fun r => match r with Ok (_, o) => o | _ => [] end) Q). cbn in Q1.
  assert (Q2 := f_equal (fun r => match r with Ok (c, _) => cfb_v c | _ => [] end) Q). cbn in Q2. clear Q.
  split; [|split].
  - rewrite (puts_frame _ _ _ _ _ _ P4) by (rewrite read_length; plc). rewrite A2, Q1, S2. reflexivity.
  - intros WH. rewrite LV in WV. rewrite <- (WV WH), <- Q2, <- A1. rewrite read_skipn, read_firstn by lia.
    apply (puts_read_n _ _ _ _ n P4). now rewrite read_length.
  - intros x O1 O2 O3 O4. rewrite (puts_out _ _ _ _ _ P4) by (rewrite read_length; plc). rewrite A4 by plc.
    rewrite (puts_out _ _ _ _ _ P2) by (rewrite read_length; plc). apply (puts_out _ _ _ _ _ P1). rewrite read_length; plc.
Qed.
End Cfb.
