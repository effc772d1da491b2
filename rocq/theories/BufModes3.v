(** CTR, GCM and ARC4 on a flat memory. *)
From Verif Require Import Base Bits Lists Bytes BytesSpec MemxorModel Memxor ModesModel ModesSpec Modes Modes2 GcmModel GcmSpec Gcm Arc4Model BufModel BufSpec Buf BufModes.

Section Ctr.
Variable n : nat.
Hypothesis Hn : (2 <= n)%nat.
Variable E : list Z -> list Z.
Hypothesis LE : forall b, length b = n -> length (E b) = n.
Let LEr : forall m a, length (E (read m a n)) = n := fun m a => LE _ (read_length m a n).
Let Hn0 : (0 < n)%nat. Proof. clear - Hn. lia. Qed.

Lemma inc_mem m V t : read m V n = be_bytes n t -> exists m', inc_m m V n = Ok m' /\ puts m m' V (be_bytes n (t + 1)).
Proof. intros R. unfold inc_m. rewrite R, increment_bytes by auto. cbn [bind]. eexists. split; [reflexivity|apply write_puts]. Qed.

Lemma fill_mem V k : forall m p t, read m V n = be_bytes n t -> sep V n p (k * n) ->
  exists m', ctr_fill k n V m p = Ok m' /\ read m' p (k * n) = concat (counters n t k) /\ read m' V n = be_bytes n (t + Z.of_nat k) /\
    forall x, outside x p (k * n) -> outside x V n -> m' x = m x.
Proof.
  induction k as [|k IH]; intros m p t R S.
  - exists m. cbn [ctr_fill Nat.mul]. rewrite Z.add_0_r. auto.
  - cbn [ctr_fill]. cbn [Nat.mul] in S.
    destruct (memcpy_puts m p V n) as (m1 & E1 & P1); [set (w := (k * n)%nat) in *; clearbody w; plc|]. rewrite E1. cbn [bind]. rewrite R in P1.
    assert (LB : forall u, length (be_bytes n u) = n) by (intros; apply be_bytes_length).
    destruct (inc_mem m1 V t) as (m2 & E2 & P2). { rewrite (puts_frame _ _ _ _ _ _ P1); [exact R|]. rewrite LB. set (w := (k * n)%nat) in *. clearbody w. plc. }
    rewrite E2. cbn [bind].
    destruct (IH m2 (p + Z.of_nat n) (t + 1)) as (m3 & E3 & A1 & A2 & A3).
    { now apply (puts_read_n _ _ _ _ n P2). } { set (w := (k * n)%nat) in *. clearbody w. plc. }
    exists m3. split; [exact E3|]. cbn [Nat.mul]. rewrite counters_S. cbn [concat].
    set (w := (k * n)%nat) in *. clearbody w. split; [|split].
    + rewrite read_app, A1. f_equal. rewrite <- (puts_read_n _ _ _ _ n P1) by auto.
      rewrite <- (puts_frame _ _ _ _ p n P2) by (rewrite LB; plc). apply read_ext. intros x Hx. apply A3; plc.
    + rewrite A2. f_equal. lia.
    + intros x O1 O2. rewrite A3 by plc. rewrite (puts_out _ _ _ _ _ P2) by (rewrite LB; plc). apply (puts_out _ _ _ _ _ P1). rewrite LB. plc.
Qed.

Lemma ecb_len k l : length l = (k * n)%nat -> length (ecb n E l) = (k * n)%nat.
Proof.
  revert l. induction k as [|k IH]; intros l L; [destruct l; [reflexivity|discriminate]|]. cbn [Nat.mul] in *.
  rewrite <- (firstn_skipn n l). rewrite ecb_cons by (auto; rewrite firstn_length; lia).
  rewrite app_length, LE by (rewrite firstn_length; lia). rewrite IH by (rewrite skipn_length; lia). reflexivity.
Qed.

(** the key stream of [k] blocks at [p] *)
Lemma stream_mem V k m p t : read m V n = be_bytes n t -> sep V n p (k * n) ->
  exists m1, ctr_fill k n V m p = Ok m1 /\ read (crypt_m k n E m1 p p) p (k * n) = ctr_stream E n t k /\
    read (crypt_m k n E m1 p p) V n = be_bytes n (t + Z.of_nat k) /\
    forall x, outside x p (k * n) -> outside x V n -> crypt_m k n E m1 p p x = m x.
Proof.
  intros R S. destruct (fill_mem V k m p t R S) as (m1 & E1 & A1 & A2 & A3). exists m1. split; [exact E1|].
  assert (P := crypt_puts n Hn0 E LE k m1 p p ltac:(plc)). rewrite A1, ecb_counters in P by auto.
  assert (LS := stream_length E n t k LE). split; [|split].
  - now apply (puts_read_n _ _ _ _ _ P).
  - rewrite (puts_frame _ _ _ _ _ _ P) by (now rewrite LS). exact A2.
  - intros x O1 O2. rewrite (puts_out _ _ _ _ _ P) by (now rewrite LS). auto.
Qed.

Lemma ctr_apart_mem V B T m d s len t : (n <= 64)%nat -> read m V n = be_bytes n t -> sep d len s len -> sep V n d len -> sep V n s len -> sep V n B 64 -> sep B 64 d len -> sep B 64 s len ->
  exists m', ctr_apart_m E n V B T m d s len = Ok m' /\ read m' d len = xorl (read m s len) (ctr_stream E n t (nblocks n len)) /\
    read m' V n = be_bytes n (t + Z.of_nat (nblocks n len)) /\
    forall x, outside x d len -> outside x V n -> outside x B 64 -> m' x = m x.
Proof.
  intros N64 R Sds SVd SVs SVB SBd SBs. unfold ctr_apart_m.
  pose proof (Nat.div_mod len n ltac:(lia)) as DM. pose proof (Nat.mod_upper_bound len n ltac:(lia)) as MB.
  set (k := (len / n)%nat) in *. set (r := (len mod n)%nat) in *. clearbody k r. rewrite Nat.mul_comm in DM. subst len.
  replace (k * n + r - k * n)%nat with r by lia. rewrite nblocks_add by auto.
  destruct (stream_mem V k m d t R) as (m1 & E1 & A1 & A2 & A3). { set (w := (k * n)%nat) in *. clearbody w. plc. }
  rewrite E1. cbn [bind]. set (m2 := crypt_m k n E m1 d d) in *. clearbody m2. clear m1 E1.
  assert (P3 := memxor_puts m2 d s (k * n)). set (m3 := memxor m2 d s (k * n)) in *. clearbody m3. rewrite A1 in P3.
  assert (LS := stream_length E n t k LE).
  assert (W : exists w, w = (k * n)%nat) by eauto. destruct W as [w Hw]. rewrite <- Hw in *.
  assert (S2 : read m2 s w = read m s w) by (apply read_ext; intros x Hx; apply A3; plc).
  rewrite S2 in P3. assert (L3 : length (xorl (ctr_stream E n t k) (read m s w)) = w) by (rewrite xorl_length_eq; rewrite ?read_length; auto).
  assert (F3 : forall x, outside x d w -> outside x V n -> m3 x = m x).
  { intros x O1 O2. rewrite (puts_out _ _ _ _ _ P3) by (now rewrite L3). auto. }
  assert (D3 : read m3 d w = xorl (read m s w) (ctr_stream E n t k)) by (rewrite (puts_read_n _ _ _ _ w P3) by auto; apply xorl_comm).
  assert (V3 : read m3 V n = be_bytes n (t + Z.of_nat k)) by (rewrite (puts_frame _ _ _ _ _ _ P3) by (rewrite L3; plc); exact A2).
  clear P3 L3 A1 A2 A3 m2 S2.
  rewrite (read_app m). rewrite xorl_stream_app by (rewrite ?read_length; auto).
  destruct (Nat.eqb_spec r 0) as [->|N0].
  - exists m3. rewrite nblocks_0, !Nat.add_0_r by auto. split; [reflexivity|]. split; [|split; auto].
    rewrite D3. cbn [read seq map xorl]. now rewrite app_nil_r.
  - rewrite nblocks_small by lia.
    assert (P4 := crypt1_puts n E m3 B V). set (m4 := crypt_m 1 n E m3 B V) in *. clearbody m4. rewrite V3 in P4.
    assert (L4 : length (E (be_bytes n (t + Z.of_nat k))) = n) by (apply LE, be_bytes_length).
    destruct (inc_mem m4 V (t + Z.of_nat k)) as (m5 & E5 & P5). { rewrite (puts_frame _ _ _ _ _ _ P4) by (rewrite L4; plc). exact V3. }
    rewrite E5. cbn [bind].
    destruct (memxor2_puts T m5 (d + Z.of_nat w) (s + Z.of_nat w) B r) as (m6 & E6 & P6); [plc|].
    exists m6. split; [exact E6|].
    assert (B5 : read m5 B r = firstn r (E (be_bytes n (t + Z.of_nat k)))).
    { rewrite (puts_frame _ _ _ _ _ _ P5) by (rewrite be_bytes_length; plc).
      rewrite <- (read_firstn m4 B n r) by lia. f_equal. apply (puts_read_n _ _ _ _ n P4). auto. }
    assert (S5 : read m5 (s + Z.of_nat w) r = read m (s + Z.of_nat w) r).
    { rewrite (puts_frame _ _ _ _ _ _ P5) by (rewrite be_bytes_length; plc). rewrite (puts_frame _ _ _ _ _ _ P4) by (rewrite L4; plc).
      apply read_ext. intros x Hx. apply F3; plc. }
    rewrite S5, B5 in P6.
    assert (L6 : length (xorl (read m (s + Z.of_nat w) r) (firstn r (E (be_bytes n (t + Z.of_nat k))))) = r).
    { rewrite xorl_length_eq; rewrite ?firstn_length, ?read_length; lia. }
    split; [|split].
    + rewrite (read_app m6). f_equal.
      * rewrite <- D3. rewrite (puts_frame _ _ _ _ _ _ P6) by (rewrite L6; plc). rewrite (puts_frame _ _ _ _ _ _ P5) by (rewrite be_bytes_length; plc).
        apply (puts_frame _ _ _ _ _ _ P4). rewrite L4; plc.
      * rewrite (puts_read_n _ _ _ _ r P6) by auto. unfold ctr_stream. cbn [seq map concat]. rewrite Z.add_0_r, app_nil_r.
        rewrite <- (xorl_firstn_r (read m (s + Z.of_nat w) r) (E (be_bytes n (t + Z.of_nat k)))). now rewrite read_length.
    + rewrite (puts_frame _ _ _ _ _ _ P6) by (rewrite L6; plc). rewrite (puts_read_n _ _ _ _ n P5) by (now rewrite be_bytes_length). f_equal. lia.
    + intros x O1 O2 O3. rewrite (puts_out _ _ _ _ _ P6) by (rewrite L6; plc). rewrite (puts_out _ _ _ _ _ P5) by (rewrite be_bytes_length; plc).
      rewrite (puts_out _ _ _ _ _ P4) by (rewrite L4; plc). apply F3; plc.
Qed.

Lemma ctr_inplace_mem V B T fuel : forall m a len t, (n = 16%nat \/ (len < 64 /\ nblocks n len * n <= 64)%nat) -> (len <= fuel)%nat ->
  read m V n = be_bytes n t -> sep V n a len -> sep V n B 64 -> sep B 64 a len ->
  exists m', ctr_inplace_m fuel E n V B T m a a len = Ok m' /\ read m' a len = xorl (read m a len) (ctr_stream E n t (nblocks n len)) /\
    read m' V n = be_bytes n (t + Z.of_nat (nblocks n len)) /\
    forall x, outside x a len -> outside x V n -> outside x B 64 -> m' x = m x.
Proof.
  assert (Z0 : forall m a t, read m V n = be_bytes n t ->
    exists m', Ok m = Ok m' /\ read m' a 0 = xorl (read m a 0) (ctr_stream E n t (nblocks n 0)) /\
    read m' V n = be_bytes n (t + Z.of_nat (nblocks n 0)) /\ forall x, outside x a 0 -> outside x V n -> outside x B 64 -> m' x = m x).
  { intros m a t R. exists m. rewrite nblocks_0 by auto. rewrite Z.add_0_r. auto. }
  induction fuel as [|fuel IH]; intros m a len t C Hf R SVa SVB SBa.
  - assert (len = 0)%nat as -> by lia. apply Z0; auto.
  - cbn [ctr_inplace_m]. destruct (Nat.leb_spec 64 len) as [H|H].
    + assert (N16 : n = 16%nat) by lia. clear C. replace (64 / n)%nat with 4%nat by (rewrite N16; reflexivity).
      destruct (stream_mem V 4 m B t R) as (m1 & E1 & A1 & A2 & A3); [plc|]. rewrite E1. cbn [bind].
      set (m2 := crypt_m 4 n E m1 B B) in *. clearbody m2. clear m1 E1.
      assert (F4 : (4 * n = 64)%nat) by lia. rewrite F4 in A1, A3.
      destruct (memxor2_puts T m2 a a B 64) as (m3 & E3 & P3); [plc|]. rewrite E3. cbn [bind].
      assert (S2 : read m2 a 64 = read m a 64) by (apply read_ext; intros x Hx; apply A3; plc). rewrite S2, A1 in P3.
      assert (LS := stream_length E n t 4 LE). rewrite F4 in LS.
      assert (L3 : length (xorl (read m a 64) (ctr_stream E n t 4)) = 64%nat) by (rewrite xorl_length_eq; rewrite ?read_length; auto).
      assert (F3 : forall x, outside x a 64 -> outside x V n -> outside x B 64 -> m3 x = m x).
      { intros x O1 O2 O3. rewrite (puts_out _ _ _ _ _ P3) by (now rewrite L3). auto. }
      assert (V3 : read m3 V n = be_bytes n (t + Z.of_nat 4)) by (rewrite (puts_frame _ _ _ _ _ _ P3) by (rewrite L3; plc); exact A2).
      destruct (IH m3 (a + Z.of_nat 64) (len - 64)%nat (t + Z.of_nat 4)) as (m' & E5 & B1 & B2 & B3); auto; try plc.
      change (a + 64) with (a + Z.of_nat 64). exists m'. split; [exact E5|].
      assert (EL : len = (4 * n + (len - 64))%nat) by lia. remember (len - 64)%nat as w eqn:Dw. clear Dw. subst len.
      rewrite nblocks_add by auto. rewrite F4 in *.
      rewrite (read_app m 64), (read_app m' 64). rewrite (xorl_stream_app E n t _ _ 4) by (rewrite ?read_length; auto).
      split; [|split].
      * f_equal.
        -- rewrite <- (puts_read_n _ _ _ _ 64 P3) by auto. apply read_ext. intros x Hx. apply B3; plc.
        -- rewrite B1. f_equal. apply read_ext. intros x Hx. apply F3; plc.
      * rewrite B2. f_equal. lia.
      * intros x O1 O2 O3. rewrite B3 by plc. apply F3; plc.
    + destruct (Nat.eqb_spec len 0) as [->|N0]; [apply Z0; auto|].
      fold (nblocks n len). assert (KB : (nblocks n len * n <= 64)%nat).
      { destruct C as [->|[_ C]]; [|exact C]. assert (nblocks 16 len < 5)%nat; [|lia]. unfold nblocks. apply Nat.div_lt_upper_bound; lia. }
      destruct (Nat.ltb_spec 64 (nblocks n len * n)) as [U|_]; [lia|].
      pose proof (nblocks_le n len Hn0) as KL. set (k := nblocks n len) in *. clearbody k.
      destruct (stream_mem V k m B t R) as (m1 & E1 & A1 & A2 & A3). { set (w := (k * n)%nat) in *. clearbody w. plc. }
      rewrite E1. cbn [bind]. set (m2 := crypt_m k n E m1 B B) in *. clearbody m2. clear m1 E1.
      assert (LS := stream_length E n t k LE).
      assert (W : exists w, w = (k * n)%nat) by eauto. destruct W as [w Hw]. rewrite <- Hw in *.
      destruct (memxor2_puts T m2 a a B len) as (m3 & E3 & P3); [plc|].
      assert (S2 : read m2 a len = read m a len) by (apply read_ext; intros x Hx; apply A3; plc).
      assert (B2 : read m2 B len = firstn len (ctr_stream E n t k)) by (rewrite <- A1; symmetry; apply read_firstn; auto).
      rewrite S2, B2 in P3. rewrite <- (read_length m a len) in P3 at 2. rewrite xorl_firstn_r in P3.
      assert (L3 : length (xorl (read m a len) (ctr_stream E n t k)) = len) by (rewrite xorl_length, LS, read_length; lia).
      exists m3. split; [exact E3|]. split; [|split].
      * now apply (puts_read_n _ _ _ _ len P3).
      * rewrite (puts_frame _ _ _ _ _ _ P3) by (rewrite L3; plc). exact A2.
      * intros x O1 O2 O3. rewrite (puts_out _ _ _ _ _ P3) by (rewrite L3; plc). apply A3; plc.
Qed.

Lemma ctr_mem V B T m d s len t : (n <= 64)%nat -> read m V n = be_bytes n t -> same_or_sep d s len ->
  (d = s -> n = 16%nat \/ (len < 64 /\ nblocks n len * n <= 64)%nat) ->
  sep V n d len -> sep V n s len -> sep V n B 64 -> sep B 64 d len -> sep B 64 s len ->
  exists m', ctr_encrypt_m E n V B T m d s len = Ok m' /\ read m' d len = xorl (read m s len) (ctr_stream E n t (nblocks n len)) /\
    read m' V n = be_bytes n (t + Z.of_nat (nblocks n len)) /\
    forall x, outside x d len -> outside x V n -> outside x B 64 -> m' x = m x.
Proof.
  intros N64 R S C SVd SVs SVB SBd SBs. unfold ctr_encrypt_m. destruct (Nat.eqb_spec n 0); [lia|].
  destruct (Z.eqb_spec s d) as [->|N].
  - apply ctr_inplace_mem; auto.
  - destruct S as [->|S]; [congruence|]. apply ctr_apart_mem; auto.
Qed.
End Ctr.

(** * GCM *)
Section Gcm.
Variable E : list Z -> list Z.
Hypothesis BC : bcipher E.

Lemma gcm_operate_mem B T same fuel : forall size m ctr d s, blk ctr -> (if same : bool then d = s else d + 16 <= s \/ s + Z.of_nat size <= d) ->
  sep B 16 d size -> sep B 16 s size -> (size <= fuel)%nat ->
  exists m', gcm_operate_m fuel E same B T ctr m d s size = Ok (incs (length (chunks 16 (read m s size))) ctr, m') /\
    read m' d size = gctr E ctr (read m s size) /\ forall x, outside x d size -> outside x B 16 -> m' x = m x.
Proof.
  assert (G0 : forall ctr, gctr E ctr [] = []) by reflexivity.
  induction fuel as [|fuel IH]; intros size m ctr d s K PL SBd SBs Hf.
  - assert (size = 0)%nat as -> by lia. exists m. cbn [gcm_operate_m Nat.leb Nat.eqb]. auto.
  - cbn [gcm_operate_m]. destruct (BC ctr (proj1 K) (proj2 K)) as [LK _].
    destruct (Nat.leb_spec 16 size) as [H|H].
    + set (step := if same then _ else _).
      assert (ST : exists m1, step = Ok m1 /\ read m1 d 16 = xorl (read m s 16) (E ctr) /\ forall x, outside x d 16 -> outside x B 16 -> m1 x = m x).
      { assert (LX : length (xorl (read m s 16) (E ctr)) = 16%nat) by (rewrite xorl_length_eq; rewrite ?read_length; auto).
        destruct same; unfold step.
        - assert (PB := write_puts (E ctr) m B). set (mb := write m B (E ctr)) in *. clearbody mb.
          destruct (memxor2_puts T mb d s B 16) as (m1 & E1 & P1); [plc|]. exists m1. split; [exact E1|].
          rewrite (puts_frame _ _ _ _ s 16 PB) in P1 by (rewrite LK; plc). rewrite (puts_read_n _ _ _ _ 16 PB) in P1 by auto.
          split; [now apply (puts_read_n _ _ _ _ 16 P1)|]. intros x O1 O2.
          rewrite (puts_out _ _ _ _ _ P1) by (now rewrite LX). apply (puts_out _ _ _ _ _ PB). now rewrite LK.
        - assert (PB := write_puts (E ctr) m d). set (mb := write m d (E ctr)) in *. clearbody mb.
          assert (P1 := memxor_puts mb d s 16). eexists. split; [reflexivity|].
          rewrite (puts_frame _ _ _ _ s 16 PB) in P1 by (rewrite LK; plc). rewrite (puts_read_n _ _ _ _ 16 PB) in P1 by auto.
          rewrite xorl_comm in P1. split; [now apply (puts_read_n _ _ _ _ 16 P1)|]. intros x O1 O2.
          rewrite (puts_out _ _ _ _ _ P1) by (now rewrite LX). apply (puts_out _ _ _ _ _ PB). now rewrite LK. }
      clearbody step. destruct ST as (m1 & -> & R1 & F1). cbn [bind]. rewrite inc_last4_ok by auto. cbn [bind].
      destruct (IH (size - 16)%nat m1 (inc32 ctr) (d + Z.of_nat 16) (s + Z.of_nat 16)) as (m' & E2 & A1 & A2); [now apply blk_inc32| |plc|plc|lia|].
      { destruct same; lia. }
      change (d + 16) with (d + Z.of_nat 16). change (s + 16) with (s + Z.of_nat 16). exists m'.
      assert (SS : read m1 (s + Z.of_nat 16) (size - 16) = read m (s + Z.of_nat 16) (size - 16)).
      { apply read_ext. intros x Hx. apply F1; [|plc]. destruct same; plc. }
      rewrite SS in E2, A1. remember (size - 16)%nat as w eqn:Dw. assert (size = 16 + w)%nat as -> by lia. clear Dw.
      rewrite (read_app m 16), (read_app m' 16). rewrite chunks_app by (try lia; apply read_length). cbn [length]. rewrite incs_S.
      split; [exact E2|]. split.
      * unfold gctr. rewrite chunks_app by (try lia; apply read_length). cbn [gctr_blocks]. f_equal; [|exact A1].
        rewrite <- R1. apply read_ext. intros x Hx. apply A2; plc.
      * intros x O1 O2. rewrite A2 by plc. apply F1; plc.
    + destruct (Nat.eqb_spec size 0) as [->|N0]; [exists m; auto|].
      assert (PB := write_puts (E ctr) m B). set (mb := write m B (E ctr)) in *. clearbody mb.
      destruct (memxor2_puts T mb d s B size) as (m1 & E1 & P1); [plc|]. rewrite E1. cbn [bind]. rewrite inc_last4_ok by auto. cbn [bind].
      rewrite (puts_frame _ _ _ _ s size PB) in P1 by (rewrite LK; plc).
      assert (BK : read mb B size = firstn size (E ctr)) by (rewrite <- (puts_read_n _ _ _ _ 16 PB) by auto; symmetry; apply read_firstn; lia).
      rewrite BK in P1. rewrite <- (read_length m s size) in P1 at 2. rewrite xorl_firstn_r in P1.
      assert (LX : length (xorl (read m s size) (E ctr)) = size) by (rewrite xorl_length, LK, read_length; lia).
      exists m1. rewrite (chunks_short 16 (read m s size)) by (rewrite ?read_length; lia). split; [reflexivity|]. split.
      * rewrite gctr_short by (rewrite read_length; lia). now apply (puts_read_n _ _ _ _ size P1).
      * intros x O1 O2. rewrite (puts_out _ _ _ _ _ P1) by (now rewrite LX). apply (puts_out _ _ _ _ _ PB). now rewrite LK.
Qed.

Lemma gcm_encrypt_mem B T c m d s size : blk (g_ctr c) -> gcm_place d s size -> sep B 16 d size -> sep B 16 s size ->
  exists c' l m', gcm_encrypt E c (read m s size) = Ok (c', l) /\ gcm_encrypt_m E B T c m d s size = Ok (c', m') /\
    read m' d size = l /\ forall x, outside x d size -> outside x B 16 -> m' x = m x.
Proof.
  intros K PL S1 S2. unfold gcm_encrypt, gcm_encrypt_m. rewrite operate_ok by auto. cbn [bind].
  destruct (gcm_operate_mem B T (s =? d) (S size) size m (g_ctr c) d s) as (m' & E1 & A1 & A2); auto.
  { unfold gcm_place in PL. destruct (Z.eqb_spec s d); lia. }
  rewrite E1. cbn [bind]. rewrite A1, read_length. do 3 eexists. split; [reflexivity|]. split; [reflexivity|]. auto.
Qed.
Lemma gcm_decrypt_mem B T c m d s size : blk (g_ctr c) -> gcm_place d s size -> sep B 16 d size -> sep B 16 s size ->
  exists c' l m', gcm_decrypt E c (read m s size) = Ok (c', l) /\ gcm_decrypt_m E B T c m d s size = Ok (c', m') /\
    read m' d size = l /\ forall x, outside x d size -> outside x B 16 -> m' x = m x.
Proof.
  intros K PL S1 S2. unfold gcm_decrypt, gcm_decrypt_m. rewrite operate_ok by auto. cbn [bind].
  destruct (gcm_operate_mem B T (s =? d) (S size) size m (g_ctr c) d s) as (m' & E1 & A1 & A2); auto.
  { unfold gcm_place in PL. destruct (Z.eqb_spec s d); lia. }
  rewrite E1. cbn [bind]. rewrite read_length. do 3 eexists. split; [reflexivity|]. split; [reflexivity|]. auto.
Qed.
End Gcm.

(** * ARC4 *)
Lemma arc4_mem size : forall c m d s, forward d s size ->
  exists m', arc4_crypt_m size c m d s = (fst (arc4_crypt c (read m s size)), m') /\ puts m m' d (snd (arc4_crypt c (read m s size))) /\
    length (snd (arc4_crypt c (read m s size))) = size.
Proof.
  induction size as [|size IH]; intros c m d s F.
  - exists m. split; [reflexivity|]. split; [apply puts_nil|reflexivity].
  - cbn [arc4_crypt_m]. rewrite read_S. cbn [arc4_crypt]. destruct (arc4_next c) as [c1 k].
    destruct (IH c1 (put m d (Z.lxor (m s) k)) (d + 1) (s + 1)) as (m' & E1 & P1 & L1); [plc|].
    assert (R : read (put m d (Z.lxor (m s) k)) (s + 1) size = read m (s + 1) size).
    { apply read_ext. intros x Hx. unfold put. destruct (Z.eqb_spec x d); [plc|reflexivity]. }
    rewrite R in *. rewrite E1. destruct (arc4_crypt c1 (read m (s + 1) size)) as [c2 o]. cbn [fst snd] in *.
    exists m'. split; [reflexivity|]. split; [|cbn [length]; lia].
    change (Z.lxor (m s) k :: o) with ([Z.lxor (m s) k] ++ o). eapply puts_app; [|exact P1].
    apply (write_puts [Z.lxor (m s) k]).
Qed.
