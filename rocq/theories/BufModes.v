(** ECB, CBC, CFB, CTR, GCM and ARC4 on a flat memory. *)
From Verif Require Import Base Bits Lists Bytes BytesSpec MemxorModel Memxor ModesModel ModesSpec Modes Modes2 GcmModel Arc4Model BufModel BufSpec Buf.

Lemma last_cons {A} (r : list A) : forall c d, last (c :: r) d = last r c.
Proof. induction r as [|x r IH]; intros c d; auto. rewrite (IH x c). change (last (c :: x :: r) d) with (last (x :: r) d). apply IH. Qed.

Section Modes.
Variable n : nat.
Hypothesis Hn : (0 < n)%nat.
Variable E : list Z -> list Z.
Hypothesis LE : forall b, length b = n -> length (E b) = n.
Let LEr : forall m a, length (E (read m a n)) = n := fun m a => LE _ (read_length m a n).

Lemma crypt_puts k : forall m d s, forward d s (k * n) -> puts m (crypt_m k n E m d s) d (ecb n E (read m s (k * n))).
Proof.
  induction k as [|k IH]; intros m d s F.
  - cbn [crypt_m Nat.mul]. apply puts_nil.
  - cbn [crypt_m Nat.mul]. rewrite read_app, ecb_cons by (auto; apply read_length).
    pose proof (write_puts (E (read m s n)) m d) as P1.
    eapply puts_app; [exact P1|]. rewrite LEr.
    rewrite <- (puts_frame _ _ _ _ (s + Z.of_nat n) (k * n) P1) by (rewrite LEr; plc).
    apply IH. plc.
Qed.

(** * CBC *)
Lemma cbc_enc_mem V k : forall fuel m d s, (k <= fuel)%nat -> forward d s (k * n) -> sep V n d (k * n) -> sep V n s (k * n) ->
  let cs := cbc_spec E (read m V n) (chunks n (read m s (k * n))) in
  exists m', cbc_enc_m fuel E n V m d s (k * n) = Ok m' /\ read m' d (k * n) = concat cs /\ read m' V n = last cs (read m V n) /\
    forall x, outside x d (k * n) -> outside x V n -> m' x = m x.
Proof.
  induction k as [|k IH]; intros fuel m d s Hf F Sd Ss; cbn zeta.
  - exists m. cbn [Nat.mul]. destruct fuel; repeat split; auto.
  - destruct fuel as [|fuel]; [lia|]. cbn [cbc_enc_m].
    destruct (Nat.eqb_spec (S k * n) 0) as [C|_]; [nia|]. destruct (Nat.ltb_spec (S k * n) n) as [C|_]; [nia|].
    rewrite chunks_read by auto. cbn [cbc_spec concat].
    pose proof (memxor_puts m V s n) as P1. set (m1 := memxor m V s n) in *.
    assert (L1 : length (xorl (read m V n) (read m s n)) = n) by (rewrite xorl_length_eq; now rewrite ?read_length).
    assert (R1 : read m1 V n = xorl (read m s n) (read m V n)) by (rewrite (puts_read_n _ _ _ _ n P1) by auto; apply xorl_comm).
    pose proof (crypt1_puts n E m1 d V) as P2. set (m2 := crypt_m 1 n E m1 d V) in *. rewrite R1 in P2.
    set (c := E (xorl (read m s n) (read m V n))) in *.
    assert (Lc : length c = n) by (apply LE; rewrite xorl_length_eq; now rewrite ?read_length).
    destruct (memcpy_puts m2 V d n) as (m3 & E3 & P3); [plc|]. rewrite E3. cbn [bind].
    assert (R2 : read m2 d n = c) by (apply (puts_read_n _ _ _ _ n P2); auto). rewrite R2 in P3.
    replace (S k * n - n)%nat with (k * n)%nat by lia.
    destruct (IH fuel m3 (d + Z.of_nat n) (s + Z.of_nat n)) as (m' & EQ & RD & RV & FR); [lia|plc|plc|plc|].
    assert (V3 : read m3 V n = c) by (apply (puts_read_n _ _ _ _ n P3); auto).
    assert (S3 : read m3 (s + Z.of_nat n) (k * n) = read m (s + Z.of_nat n) (k * n)).
    { rewrite (puts_frame _ _ _ _ _ _ P3) by (rewrite Lc; plc). rewrite (puts_frame _ _ _ _ _ _ P2) by (rewrite Lc; plc).
      apply (puts_frame _ _ _ _ _ _ P1). rewrite L1. plc. }
    rewrite V3, S3 in *. exists m'. split; [exact EQ|]. split; [|split].
    + cbn [Nat.mul]. rewrite read_app, RD. f_equal.
      rewrite <- R2. rewrite <- (puts_frame _ _ _ _ d n P3) by (rewrite Lc; plc).
      apply read_ext. intros x Hx. apply FR; plc.
    + rewrite last_cons. exact RV.
    + intros x Ox OV. rewrite FR by plc. rewrite (puts_out _ _ _ _ _ P3) by (rewrite Lc; auto).
      rewrite (puts_out _ _ _ _ _ P2) by (rewrite Lc; plc). apply (puts_out _ _ _ _ _ P1). now rewrite L1.
Qed.

Lemma piece_mem V I T k : (0 < k)%nat -> forall m b S,
  sep V n S (k * n) -> sep V n b (k * n) -> sep V n I n -> sep I n S (k * n) -> sep I n b (k * n) -> sep b (k * n) S (k * n) ->
  exists m', cbc_piece_m E n V I T m b S S (k * n) = Ok m' /\
    cbc_dec_piece E n (read m V n) (read m S (k * n)) (k * n) = (read m' V n, read m' S (k * n)) /\
    forall x, outside x S (k * n) -> outside x V n -> outside x I n -> outside x b (k * n) -> m' x = m x.
Proof.
  intros Hk m b S SVS SVb SVI SIS SIb SbS. unfold cbc_piece_m, cbc_dec_piece.
  set (z := (k * n)%nat) in *. assert (Hz : (n <= z)%nat) by (unfold z; nia).
  assert (Kz : (z / n)%nat = k) by (unfold z; apply Nat.div_mul; lia). rewrite Kz.
  pose proof (crypt_puts k m b S ltac:(fold z; plc)) as P1. fold z in P1. set (m1 := crypt_m k n E m b S) in *.
  set (dec := ecb n E (read m S z)) in *.
  assert (Ld : length dec = z). { unfold dec. rewrite ecb_length; auto; [apply read_length|]. exists k. now rewrite read_length. }
  assert (Dd : ecb n E (read m S z) = dec) by reflexivity. clearbody m1 dec.
  destruct (memcpy_puts m1 I V n) as (m2 & E2 & P2); [plc|]. rewrite E2. cbn [bind].
  rewrite (puts_frame _ _ _ _ V n P1) in P2 by (rewrite Ld; plc).
  destruct (memcpy_puts m2 V (S + Z.of_nat z - Z.of_nat n) n) as (m3 & E3 & P3); [plc|]. rewrite E3. cbn [bind].
  rewrite (puts_frame _ _ _ _ _ n P2) in P3 by (rewrite read_length; plc).
  rewrite (puts_frame _ _ _ _ _ n P1) in P3 by (rewrite Ld; plc).
  destruct (memxor2_puts T m3 (S + Z.of_nat n) (b + Z.of_nat n) S (z - n)) as (m4 & E4 & P4); [plc|]. rewrite E4. cbn [bind].
  assert (B3 : read m3 (b + Z.of_nat n) (z - n) = skipn n dec).
  { rewrite (puts_frame _ _ _ _ _ _ P3) by (rewrite read_length; plc). rewrite (puts_frame _ _ _ _ _ _ P2) by (rewrite read_length; plc).
    rewrite <- read_skipn by auto. now rewrite (puts_read_n _ _ _ _ z P1). }
  assert (S3 : read m3 S (z - n) = read m S (z - n)).
  { rewrite (puts_frame _ _ _ _ _ _ P3) by (rewrite read_length; plc). rewrite (puts_frame _ _ _ _ _ _ P2) by (rewrite read_length; plc).
    apply (puts_frame _ _ _ _ _ _ P1). rewrite Ld. plc. }
  rewrite B3, S3 in P4.
  assert (L4 : length (xorl (skipn n dec) (read m S (z - n))) = (z - n)%nat).
  { rewrite xorl_length, skipn_length, read_length, Ld. lia. }
  destruct (memxor2_puts T m4 S b I n) as (m5 & E5 & P5); [plc|].
  assert (B4 : read m4 b n = firstn n dec).
  { rewrite (puts_frame _ _ _ _ _ _ P4) by (rewrite L4; plc). rewrite (puts_frame _ _ _ _ _ _ P3) by (rewrite read_length; plc).
    rewrite (puts_frame _ _ _ _ _ _ P2) by (rewrite read_length; plc).
    rewrite <- (read_firstn m1 b z n) by auto. now rewrite (puts_read_n _ _ _ _ z P1). }
  assert (I4 : read m4 I n = read m V n).
  { rewrite (puts_frame _ _ _ _ _ _ P4) by (rewrite L4; plc). rewrite (puts_frame _ _ _ _ _ _ P3) by (rewrite read_length; plc).
    apply (puts_read_n _ _ _ _ _ P2). now rewrite read_length. }
  rewrite B4, I4 in P5.
  assert (L5 : length (xorl (firstn n dec) (read m V n)) = n).
  { rewrite xorl_length, firstn_length, read_length, Ld. lia. }
  exists m5. split; [exact E5|]. split.
  - rewrite read_firstn by auto. rewrite Dd. rewrite (read_skipn m S z) by lia. rewrite (read_firstn m S z) by lia.
    replace (z - (z - n))%nat with n by lia. rewrite read_firstn by lia. f_equal.
    + rewrite (puts_frame _ _ _ _ _ _ P5) by (rewrite L5; plc). rewrite (puts_frame _ _ _ _ _ _ P4) by (rewrite L4; plc).
      rewrite (puts_read_n _ _ _ _ n P3) by (now rewrite read_length). f_equal. lia.
    + replace z with (n + (z - n))%nat at 2 by lia. rewrite read_app. f_equal.
      * symmetry. now apply (puts_read_n _ _ _ _ n P5).
      * rewrite (puts_frame _ _ _ _ _ _ P5) by (rewrite L5; plc). symmetry. now apply (puts_read_n _ _ _ _ _ P4).
  - intros x O1 O2 O3 O4. rewrite (puts_out _ _ _ _ _ P5) by (rewrite L5; plc). rewrite (puts_out _ _ _ _ _ P4) by (rewrite L4; plc).
    rewrite (puts_out _ _ _ _ _ P3) by (now rewrite read_length). rewrite (puts_out _ _ _ _ _ P2) by (now rewrite read_length).
    apply (puts_out _ _ _ _ _ P1). now rewrite Ld.
Qed.

Lemma piece_short c m S z L : (n <= z <= L)%nat -> cbc_dec_piece E n c (read m S L) z = cbc_dec_piece E n c (read m S z) z.
Proof.
  intros H. unfold cbc_dec_piece. rewrite !read_firstn by lia. rewrite !read_skipn by lia.
  rewrite !read_firstn by lia. reflexivity.
Qed.
Lemma inplace_mem V I T b kb : (0 < kb)%nat -> sep V n b (kb * n) -> sep V n I n -> sep I n b (kb * n) ->
  forall fuel k m S, (0 < k <= fuel)%nat ->
  sep V n S (k * n) -> sep I n S (k * n) -> sep b (kb * n) S (k * n) ->
  exists m', cbc_inplace_m fuel E n V I T m b S S (k * n) (kb * n) = Ok m' /\
    cbc_dec_inplace fuel E n (read m V n) (read m S (k * n)) (k * n) (kb * n) = Ok (read m' V n, read m' S (k * n)) /\
    forall x, outside x S (k * n) -> outside x V n -> outside x I n -> outside x b (kb * n) -> m' x = m x.
Proof.
  intros Hb SVb SVI SIb. induction fuel as [|fuel IH]; intros k m S Hk SVS SIS SbS; [lia|].
  cbn [cbc_inplace_m cbc_dec_inplace]. destruct (Nat.ltb_spec (kb * n) (k * n)) as [C|C].
  - assert (KB : (kb < k)%nat) by nia. assert (Kd : (k * n = kb * n + (k - kb) * n)%nat) by nia.
    destruct (piece_mem V I T kb Hb m b S) as (m1 & E1 & D1 & F1); try plc.
    rewrite E1. cbn [bind]. assert (Hn1 : (n <= kb * n)%nat) by (clear - Hb Hn; nia). rewrite piece_short by lia. rewrite D1.
    replace (k * n - kb * n)%nat with ((k - kb) * n)%nat by lia.
    destruct (IH (k - kb)%nat m1 (S + Z.of_nat (kb * n))) as (m' & E2 & D2 & F2); try plc.
    exists m'. split; [exact E2|]. split.
    + rewrite read_skipn by lia. replace (k * n - kb * n)%nat with ((k - kb) * n)%nat by lia.
      assert (R1 : read m1 (S + Z.of_nat (kb * n)) ((k - kb) * n) = read m (S + Z.of_nat (kb * n)) ((k - kb) * n)) by (apply read_ext; intros x Hx; apply F1; plc).
      rewrite R1 in D2. rewrite D2. cbn [bind]. do 2 f_equal.
      rewrite Kd. rewrite read_app. f_equal. symmetry. apply read_ext. intros x Hx. apply F2; plc.
    + intros x O1 O2 O3 O4. rewrite F2 by plc. apply F1; plc.
  - assert (KB : (k * n <= kb * n)%nat) by lia.
    destruct (piece_mem V I T k (proj1 Hk) m b S) as (m1 & E1 & D1 & F1); try plc.
    exists m1. split; [exact E1|]. split; [now rewrite D1|]. intros x O1 O2 O3 O4. apply F1; plc.
Qed.

Lemma cbc_dec_mem V I F H T m d s z : pow2 n -> (n <= 16)%nat -> (n <= z)%nat ->
  let k := (z / n)%nat in
  sep V n d (k * n) -> sep V n s (k * n) -> same_or_sep d s (k * n) ->
  (d = s -> sep V n I n /\ sep I n s (k * n) /\
    match H with
    | Some b => sep V n b (Nat.min (k * n) 512) /\ sep I n b (Nat.min (k * n) 512) /\ sep b (Nat.min (k * n) 512) s (k * n)
    | None => sep V n F 16 /\ sep I n F 16 /\ sep F 16 s (k * n)
    end) ->
  exists m', cbc_decrypt_m E n V I F H T m d s z = Ok m' /\
    read m' d (k * n) = cbc_dec_spec E (read m V n) (chunks n (read m s (k * n))) /\
    read m' V n = last (chunks n (read m s (k * n))) (read m V n) /\
    forall x, outside x d (k * n) -> outside x V n ->
      (d = s -> outside x I n /\ match H with Some b => outside x b (Nat.min (k * n) 512) | None => outside x F 16 end) -> m' x = m x.
Proof.
  intros P2 P16 Hz k SVd SVs SS IP.
  assert (Hk : (0 < k)%nat) by (apply Nat.div_str_pos; lia).
  assert (CS : cbc_size n z = (k * n)%nat) by (rewrite cbc_size_eq by auto; unfold k; lia).
  assert (W : whole n (read m s (k * n))) by (exists k; apply read_length).
  assert (NN : read m s (k * n) <> []) by (intros Q; apply (f_equal (@length Z)) in Q; rewrite read_length in Q; cbn [length] in Q; nia).
  assert (VAL : forall ip mm, cbc_decrypt E ip mm {| cbc_ctr := read m V n; cbc_len := n |} (read m s (k * n)) =
    Ok ({| cbc_ctr := last (chunks n (read m s (k * n))) (read m V n); cbc_len := n |}, cbc_dec_spec E (read m V n) (chunks n (read m s (k * n))))).
  { intros ip mm. apply cbc_decrypt_ok; cbn [cbc_len cbc_ctr]; auto. apply read_length. }
  assert (CS2 : cbc_size n (length (read m s (k * n))) = (k * n)%nat) by (rewrite cbc_size_whole by auto; apply read_length).
  assert (NL : (k * n <? n)%nat = false) by (apply Nat.ltb_ge; nia).
  unfold cbc_decrypt_m. rewrite CS, NL. destruct (Z.eqb_spec s d) as [EQ|NE].
  - subst d. destruct (IP eq_refl) as (SVI & SIs & SB). clear IP.
    assert (MAIN : forall b kb (mm : bool), (0 < kb)%nat -> (if mm then Nat.min (k * n) 512 else 16%nat) = (kb * n)%nat ->
      sep V n b (kb * n) -> sep I n b (kb * n) -> sep b (kb * n) s (k * n) ->
      exists m', cbc_inplace_m (S (k * n)) E n V I T m b s s (k * n) (kb * n) = Ok m' /\
        read m' s (k * n) = cbc_dec_spec E (read m V n) (chunks n (read m s (k * n))) /\
        read m' V n = last (chunks n (read m s (k * n))) (read m V n) /\
        forall x, outside x s (k * n) -> outside x V n -> outside x I n -> outside x b (kb * n) -> m' x = m x).
    { intros b kb mm Hkb Qb S1 S2 S3.
      destruct (inplace_mem V I T b kb Hkb S1 SVI S2 (S (k * n)) k m s) as (m' & E1 & D1 & F1); [nia|auto|auto|auto|].
      exists m'. split; [exact E1|].
      specialize (VAL true mm). unfold cbc_decrypt in VAL. cbn [cbc_len cbc_ctr] in VAL. rewrite CS2, NL in VAL.
      rewrite Qb, D1 in VAL. cbn [bind] in VAL. injection VAL as V1 V2. split; [exact V2|]. split; [exact V1|]. exact F1. }
    destruct H as [b|].
    + destruct SB as (S1 & S2 & S3).
      assert (DV : exists kb, (0 < kb)%nat /\ Nat.min (k * n) 512 = (kb * n)%nat).
      { destruct (Nat.min_spec (k * n) 512) as [[_ ->]|[_ ->]]; [exists k; auto|].
        destruct P2 as (e & Ee & He). assert (e <= 4) by (apply (Z.pow_le_mono_r_iff 2); lia).
        assert (C : e = 0 \/ e = 1 \/ e = 2 \/ e = 3 \/ e = 4) by lia.
        destruct C as [->|[->|[->|[->| ->]]]]; [exists 512%nat|exists 256%nat|exists 128%nat|exists 64%nat|exists 32%nat]; lia. }
      destruct DV as (kb & Hkb & Qb). rewrite Qb in *.
      destruct (MAIN b kb true Hkb) as (m' & E1 & A1 & A2 & A3); auto.
      exists m'. split; [exact E1|]. split; [exact A1|]. split; [exact A2|].
      intros x O1 O2 O3. destruct (O3 eq_refl). apply A3; auto.
    + destruct SB as (S1 & S2 & S3).
      assert (DV : exists kb, (0 < kb)%nat /\ 16%nat = (kb * n)%nat).
      { destruct P2 as (e & Ee & He). assert (e <= 4) by (apply (Z.pow_le_mono_r_iff 2); lia).
        assert (C : e = 0 \/ e = 1 \/ e = 2 \/ e = 3 \/ e = 4) by lia.
        destruct C as [->|[->|[->|[->| ->]]]]; [exists 16%nat|exists 8%nat|exists 4%nat|exists 2%nat|exists 1%nat]; lia. }
      destruct DV as (kb & Hkb & Qb). rewrite Qb in *.
      destruct (MAIN F kb false Hkb) as (m' & E1 & A1 & A2 & A3); auto.
      exists m'. split; [exact E1|]. split; [exact A1|]. split; [exact A2|].
      intros x O1 O2 O3. destruct (O3 eq_refl). apply A3; auto.
  - assert (SP : sep d (k * n) s (k * n)) by (destruct SS; [congruence|auto]). clear SS IP.
    specialize (VAL false true). unfold cbc_decrypt in VAL. cbn [cbc_len cbc_ctr] in VAL. rewrite CS2, NL in VAL.
    unfold cbc_dec_piece in VAL. cbn [bind] in VAL. injection VAL as V1 V2. rewrite <- V1, <- V2. clear V1 V2.
    rewrite Nat.div_mul by lia. clear CS CS2 NL W NN. set (zz := (k * n)%nat) in *. assert (Hzz : (n <= zz)%nat) by (unfold zz; nia).
    pose proof (crypt_puts k m d s ltac:(fold zz; plc)) as P1. fold zz in P1. set (m1 := crypt_m k n E m d s) in *.
    rewrite !read_firstn by lia. rewrite read_skipn, read_firstn by lia.
    set (dec := ecb n E (read m s zz)) in *.
    assert (Ld : length dec = zz). { unfold dec. rewrite ecb_length; auto; [apply read_length|]. exists k. now rewrite read_length. }
    clearbody m1 dec.
    pose proof (memxor_puts m1 d V n) as Q2. set (m2 := memxor m1 d V n) in *. clearbody m2.
    rewrite (puts_frame _ _ _ _ V n P1) in Q2 by (rewrite Ld; plc).
    assert (R1 : read m1 d n = firstn n dec) by (rewrite <- (read_firstn m1 d zz n) by auto; now rewrite (puts_read_n _ _ _ _ zz P1)).
    rewrite R1 in Q2.
    assert (L2 : length (xorl (firstn n dec) (read m V n)) = n) by (rewrite xorl_length, firstn_length, read_length, Ld; lia).
    pose proof (memxor_puts m2 (d + Z.of_nat n) s (zz - n)) as Q3. set (m3 := memxor m2 (d + Z.of_nat n) s (zz - n)) in *. clearbody m3.
    assert (R2 : read m2 (d + Z.of_nat n) (zz - n) = skipn n dec).
    { rewrite (puts_frame _ _ _ _ _ _ Q2) by (rewrite L2; plc). rewrite <- read_skipn by auto. now rewrite (puts_read_n _ _ _ _ zz P1). }
    assert (R3 : read m2 s (zz - n) = read m s (zz - n)).
    { rewrite (puts_frame _ _ _ _ _ _ Q2) by (rewrite L2; plc). apply (puts_frame _ _ _ _ _ _ P1). rewrite Ld; plc. }
    rewrite R2, R3 in Q3.
    assert (L3 : length (xorl (skipn n dec) (read m s (zz - n))) = (zz - n)%nat) by (rewrite xorl_length, skipn_length, read_length, Ld; lia).
    destruct (memcpy_puts m3 V (s + Z.of_nat zz - Z.of_nat n) n) as (m4 & E4 & P4); [plc|].
    exists m4. split; [exact E4|]. split; [|split].
    + rewrite (puts_frame _ _ _ _ _ _ P4) by (rewrite read_length; plc).
      replace zz with (n + (zz - n))%nat at 1 by lia. rewrite read_app. f_equal.
      * rewrite (puts_frame _ _ _ _ _ _ Q3) by (rewrite L3; plc). now apply (puts_read_n _ _ _ _ n Q2).
      * now apply (puts_read_n _ _ _ _ _ Q3).
    + rewrite (puts_read_n _ _ _ _ n P4) by (now rewrite read_length).
      rewrite (puts_frame _ _ _ _ _ _ Q3) by (rewrite L3; plc). rewrite (puts_frame _ _ _ _ _ _ Q2) by (rewrite L2; plc).
      rewrite (puts_frame _ _ _ _ _ _ P1) by (rewrite Ld; plc). f_equal. lia.
    + intros x O1 O2 _. rewrite (puts_out _ _ _ _ _ P4) by (now rewrite read_length). rewrite (puts_out _ _ _ _ _ Q3) by (rewrite L3; plc).
      rewrite (puts_out _ _ _ _ _ Q2) by (rewrite L2; plc). apply (puts_out _ _ _ _ _ P1). now rewrite Ld.
Qed.
End Modes.
