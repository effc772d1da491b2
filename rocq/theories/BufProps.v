(** The statements about modes of operation on memory. *)
From Verif Require Import Base Bits Lists Bytes BytesSpec MemxorModel Memxor ModesModel ModesSpec Modes Modes2 GcmModel GcmSpec Gcm Arc4Model BufModel BufSpec Buf BufModes BufModes2 BufModes3 ModesToy GcmLong.

Lemma wrote_puts m m' d l sc : puts m m' d l -> wrote m m' d l sc.
Proof. intros P. split; [now apply puts_read with (m := m)|]. intros x O _. now apply (puts_out _ _ _ _ _ P). Qed.

Lemma ecb_buf E n k m d s : (0 < n)%nat -> (forall b, length b = n -> length (E b) = n) -> forward d s (k * n) ->
  wrote m (crypt_m k n E m d s) d (concat (map E (chunks n (read m s (k * n))))) [].
Proof. intros Hn LE F. apply wrote_puts. exact (crypt_puts n Hn E LE k m d s F). Qed.

Lemma cbc_enc_buf E n V m d s size : pow2 n -> (forall b, length b = n -> length (E b) = n) ->
  let z := (size / n * n)%nat in forward d s z -> sep V n d z -> sep V n s z ->
  let cs := cbc_spec E (read m V n) (chunks n (read m s z)) in
  exists m', cbc_encrypt_m E n V m d s size = Ok m' /\ wrote m m' d (concat cs) [(V, n)] /\ length (concat cs) = z /\
    read m' V n = last cs (read m V n).
Proof.
  intros P LE z F S1 S2 cs. pose proof (pow2_gt _ P) as Hn. unfold cbc_encrypt_m. rewrite cbc_size_eq by auto. rewrite (Nat.mul_comm n).
  destruct (cbc_enc_mem n Hn E LE V (size / n) (S (size / n * n)) m d s) as (m' & E1 & A1 & A2 & A3); auto.
  { nia. }
  assert (W : whole n (read m s z)) by (exists (size / n)%nat; apply read_length).
  destruct (spec_len E n Hn LE (read m s z) W (read m V n) (read_length _ _ _)) as [L1 _]. rewrite read_length in L1. fold cs in L1.
  exists m'. split; [exact E1|]. split; [|split; [exact L1|exact A2]]. split.
  - rewrite L1. exact A1.
  - rewrite L1. intros x O Q. inversion Q; subst. auto.
Qed.

Lemma cbc_dec_buf E D n V I F H T m d s k p : pow2 n -> (n <= 16)%nat -> cipher n E D -> bytes (read m V n) -> bytes p ->
  length p = (S k * n)%nat -> read m s (S k * n) = concat (cbc_spec E (read m V n) (chunks n p)) ->
  same_or_sep d s (S k * n) -> sep V n d (S k * n) -> sep V n s (S k * n) ->
  (d = s -> sep V n I n /\ sep I n s (S k * n) /\
    match H with
    | Some b => sep V n b (Nat.min (S k * n) 512) /\ sep I n b (Nat.min (S k * n) 512) /\ sep b (Nat.min (S k * n) 512) s (S k * n)
    | None => sep V n F 16 /\ sep I n F 16 /\ sep F 16 s (S k * n)
    end) ->
  exists m', cbc_decrypt_m D n V I F H T m d s (S k * n) = Ok m' /\ wrote m m' d p ((V, n) :: cbc_scratch d s (S k * n) n I F H) /\
    read m' V n = last (cbc_spec E (read m V n) (chunks n p)) (read m V n).
Proof.
  intros P P16 C BV Bp Lp R SS SVd SVs IP. pose proof (pow2_gt _ P) as Hn.
  assert (LD : forall b, length b = n -> length (D b) = n) by (destruct C as (_ & _ & LD & _); exact LD).
  assert (KK : (S k * n / n = S k)%nat) by (apply Nat.div_mul; lia).
  pose proof (cbc_dec_mem n Hn D LD V I F H T m d s (S k * n)) as Q. cbv zeta in Q. rewrite KK in Q.
  destruct Q as (m' & E1 & A1 & A2 & A3); auto. { cbn [Nat.mul]. lia. }
  assert (W : whole n p) by (exists (S k); exact Lp).
  destruct (dec_enc E D n Hn C p W Bp (read m V n) (read_length _ _ _) BV) as (I1 & I2 & I3).
  rewrite R, I2 in A1, A2. rewrite I1 in A1. exists m'. split; [exact E1|]. split; [|exact A2]. split; [now rewrite Lp|].
  rewrite Lp. intros x O Q. inversion Q as [|? ? Q1 Q2]; subst. apply A3; auto. intros ->.
  unfold cbc_scratch in Q2. rewrite Z.eqb_refl in Q2. inversion Q2 as [|? ? Q3 Q4]; subst. inversion Q4; subst. split; [exact Q3|]. destruct H; auto.
Qed.

Lemma cfb_buf E n V T m d s len : (0 < n)%nat -> (forall b, length b = n -> length (E b) = n) -> forward d s len -> sep V n d (len + n) -> sep V n s len ->
  let cs := cfb_spec E (read m V n) (chunks n (read m s len)) in
  exists m', cfb_crypt_m (S len) E n V T m d s len = Ok m' /\ read m' d len = concat cs /\
    (Nat.modulo len n = O -> read m' V n = last cs (read m V n)) /\ forall x, outside x d len -> outside x V n -> m' x = m x.
Proof.
  intros Hn LE F S1 S2 cs. pose proof (Nat.div_mod len n ltac:(lia)) as DM. pose proof (Nat.mod_upper_bound len n ltac:(lia)) as MB.
  unfold cs. clear cs. set (k := (len / n)%nat) in *. set (r := (len mod n)%nat) in *. clearbody k r. rewrite Nat.mul_comm in DM. subst len.
  apply cfb_mem; auto. nia.
Qed.

Lemma whole_mod n (l : list Z) : (0 < n)%nat -> Nat.modulo (length l) n = O -> whole n l.
Proof. intros Hn M. exists (length l / n)%nat. pose proof (Nat.div_mod (length l) n ltac:(lia)). lia. Qed.
Lemma cfb8_spec_len E l : forall reg, length (cfb8_spec E reg l) = length l.
Proof. induction l; intros reg; [reflexivity|]. cbn [cfb8_spec length]. now rewrite IHl. Qed.
Lemma cfb8_dec_buf n E p V B W T m d s : (0 < n <= 16)%nat -> (forall b, length b = n -> length (E b) = n) ->
  let len := length p in read m s len = cfb8_spec E (read m V n) p ->
  sep B (2 * n) W (2 * n) -> forward d s len -> sep B (2 * n) d len -> sep B (2 * n) s len ->
  sep W (2 * n) d len -> sep W (2 * n) s len -> sep V n B (2 * n) -> sep V n W (2 * n) -> sep V n d len -> sep V n s len ->
  exists m', cfb8_decrypt_m E n V B W T m d s len = Ok m' /\ wrote m m' d p [(V, n); (B, 2 * n); (W, 2 * n)]%nat /\
    (Nat.modulo len n = O -> read m' V n = shift_in n (read m V n) (read m s len)).
Proof.
  intros Hn LE len R. intros. destruct (cfb8_decrypt_mem n (proj1 Hn) E LE B W T V m d s len) as (m' & E1 & A1 & A2 & A3); auto; try lia.
  exists m'. split; [exact E1|]. split; [|intros M; apply A2, whole_mod; [lia|now rewrite read_length]]. split.
  - fold len. rewrite A1, R. apply cfb8_dec_enc_spec.
  - fold len. intros x O Q. inversion Q as [|? ? Q1 Q2]; subst. inversion Q2 as [|? ? Q3 Q4]; subst. inversion Q4; subst. auto.
Qed.

Lemma ctr_buf n E V B T m d s len t : (2 <= n <= 16)%nat -> (forall b, length b = n -> length (E b) = n) ->
  read m V n = be_bytes n t -> same_or_sep d s len -> (d = s -> n = 16%nat \/ (len < 64 /\ nblocks n len * n <= 64)%nat) ->
  sep V n d len -> sep V n s len -> sep V n B 64 -> sep B 64 d len -> sep B 64 s len ->
  exists m', ctr_encrypt_m E n V B T m d s len = Ok m' /\
    wrote m m' d (xorl (read m s len) (ctr_stream E n t (nblocks n len))) [(V, n); (B, 64%nat)] /\
    read m' V n = be_bytes n (t + Z.of_nat (nblocks n len)).
Proof.
  intros Hn LE R. intros. destruct (ctr_mem n ltac:(lia) E LE V B T m d s len t) as (m' & E1 & A1 & A2 & A3); auto; try lia.
  assert (L : length (xorl (read m s len) (ctr_stream E n t (nblocks n len))) = len).
  { rewrite xorl_length, stream_length, read_length by auto. pose proof (nblocks_le n len ltac:(lia)). lia. }
  exists m'. split; [exact E1|]. split; [|exact A2]. split; [now rewrite L|].
  rewrite L. intros x O Q. inversion Q as [|? ? Q1 Q2]; subst. inversion Q2; subst. auto.
Qed.
Lemma arc4_buf size c m d s : forward d s size ->
  let r := arc4_crypt c (read m s size) in
  exists m', arc4_crypt_m size c m d s = (fst r, m') /\ wrote m m' d (snd r) [] /\ length (snd r) = size.
Proof. intros F. destruct (arc4_mem size c m d s F) as (m' & E1 & P & L). exists m'. split; [exact E1|]. split; [now apply wrote_puts|exact L]. Qed.

(** * Counterexamples *)
Definition cm : mem := fun x => (x * x + 3) mod 256.
Lemma above_wrong : exists E D m s, cipher 2 E D /\
  read (crypt_m 2 2 E m (s + 1) s) (s + 1) 4 <> concat (map E (chunks 2 (read m s 4))) /\
  (exists m', cbc_encrypt_m E 2 0 m (s + 1) s 4 = Ok m' /\ read m' (s + 1) 4 <> concat (cbc_spec E (read m 0 2) (chunks 2 (read m s 4)))) /\
  (exists m', cfb_crypt_m 5 E 2 0 None m (s + 1) s 4 = Ok m' /\ read m' (s + 1) 4 <> concat (cfb_spec E (read m 0 2) (chunks 2 (read m s 4)))) /\
  (exists m', cfb8_encrypt_m E 2 0 200 m (s + 1) s 4 = Ok m' /\ read m' (s + 1) 4 <> cfb8_spec E (read m 0 2) (read m s 4)).
Proof.
  exists toyE, toyD, cm, 100. split; [apply toy_cipher|]. split; [vm_compute; discriminate|].
  repeat split; eexists; (split; [reflexivity|vm_compute; discriminate]).
Qed.
Lemma below_wrong : exists E D m s, cipher 2 E D /\
  (exists m', cbc_decrypt_m D 2 0 300 400 None None m (s - 1) s 4 = Ok m' /\
     concat (cbc_spec E (read m 0 2) (chunks 2 (read m' (s - 1) 4))) <> read m s 4) /\
  (exists m', ctr_encrypt_m E 2 0 200 None m (s - 1) s 4 = Ok m' /\
     read m' (s - 1) 4 <> xorl (read m s 4) (ctr_stream E 2 (be_val (read m 0 2)) 2)).
Proof.
  exists toyE, toyD, cm, 100. split; [apply toy_cipher|].
  split; eexists; (split; [reflexivity|vm_compute; discriminate]).
Qed.
Definition cg : gcm := {| g_iv := repeat 0 16; g_ctr := repeat 0 16; g_hs := repeat 0 16; g_key := repeat 0 16; g_auth := 0; g_ciph := 0 |}.
Lemma gcm_below_wrong d : 0 < d < 16 -> exists E c m m' c' c1 l, bcipher E /\ blk (g_ctr c) /\
  gcm_encrypt_m E 200 None c m (100 - d) 100 16 = Ok (c', m') /\ gcm_encrypt E c (read m 100 16) = Ok (c1, l) /\ read m' (100 - d) 16 <> l.
Proof.
  intros Hd. exists toyE, cg, cm.
  assert (K : blk (g_ctr cg)) by (split; [reflexivity|apply bytes_repeat0]).
  assert (Q : d = 1 \/ d = 2 \/ d = 3 \/ d = 4 \/ d = 5 \/ d = 6 \/ d = 7 \/ d = 8 \/ d = 9 \/ d = 10 \/ d = 11 \/ d = 12 \/ d = 13 \/ d = 14 \/ d = 15) by lia.
  clear Hd. repeat (destruct Q as [->|Q]); [..|subst d];
    (do 4 eexists; split; [apply toy_bcipher|]; split; [exact K|]; split; [reflexivity|]; split; [reflexivity|vm_compute; discriminate]).
Qed.
