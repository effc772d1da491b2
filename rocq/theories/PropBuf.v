(** C82: the modes of operation on a flat memory, with a destination that may
    overlap the source.  [V]: address of the chaining value in the context,
    [B], [W], [I], [F]: addresses of local buffers, [H], [T]: answers of malloc. *)
From Verif Require Import Base BytesSpec MemxorModel ModesModel ModesSpec Modes Modes2 ModesToy GcmModel GcmSpec Gcm Arc4Model BufModel BufSpec Buf BufModes BufModes2 BufModes3 BufProps.

(** * Blocks one by one (cry_aes_encrypt, cry_des_encrypt, ...) *)
Theorem C82_blocks : forall E n k m d s, (0 < n)%nat -> (forall b, length b = n -> length (E b) = n) -> forward d s (k * n) ->
  wrote m (crypt_m k n E m d s) d (concat (map E (chunks n (read m s (k * n))))) [].
Proof. exact ecb_buf. Qed.
Print Assumptions C82_blocks.

(** * CBC *)
Theorem C82_cbc_encrypt : forall E n V m d s size, pow2 n -> (forall b, length b = n -> length (E b) = n) ->
  let z := (size / n * n)%nat in forward d s z -> sep V n d z -> sep V n s z ->
  let cs := cbc_spec E (read m V n) (chunks n (read m s z)) in
  exists m', cbc_encrypt_m E n V m d s size = Ok m' /\ wrote m m' d (concat cs) [(V, n)] /\ length (concat cs) = z /\
    read m' V n = last cs (read m V n).
Proof. exact cbc_enc_buf. Qed.
Print Assumptions C82_cbc_encrypt.
Theorem C82_cbc_decrypt : forall E D n V I F H T m d s k p, pow2 n -> (n <= 16)%nat -> cipher n E D -> bytes (read m V n) -> bytes p ->
  length p = (S k * n)%nat -> read m s (S k * n) = concat (cbc_spec E (read m V n) (chunks n p)) ->
  same_or_sep d s (S k * n) -> sep V n d (S k * n) -> sep V n s (S k * n) ->
  (d = s -> sep V n I n /\ sep I n s (S k * n) /\
    match H with
    | Some b => sep V n b (Nat.min (S k * n) 512) /\ sep I n b (Nat.min (S k * n) 512) /\ sep b (Nat.min (S k * n) 512) s (S k * n)
    | None => sep V n F 16 /\ sep I n F 16 /\ sep F 16 s (S k * n)
    end) ->
  exists m', cbc_decrypt_m D n V I F H T m d s (S k * n) = Ok m' /\ wrote m m' d p ((V, n) :: cbc_scratch d s (S k * n) n I F H) /\
    read m' V n = last (cbc_spec E (read m V n) (chunks n p)) (read m V n).
Proof. exact cbc_dec_buf. Qed.
Print Assumptions C82_cbc_decrypt.

(** * CFB *)
Theorem C82_cfb : forall E n V T m d s len, (0 < n)%nat -> (forall b, length b = n -> length (E b) = n) -> forward d s len -> sep V n d (len + n) -> sep V n s len ->
  let cs := cfb_spec E (read m V n) (chunks n (read m s len)) in
  exists m', cfb_crypt_m (S len) E n V T m d s len = Ok m' /\ read m' d len = concat cs /\
    (Nat.modulo len n = O -> read m' V n = last cs (read m V n)) /\ forall x, outside x d len -> outside x V n -> m' x = m x.
Proof. exact cfb_buf. Qed.
Print Assumptions C82_cfb.
(** The register after encryption holds the last [n] bytes of the IV followed by the output. *)
Theorem C82_cfb8_encrypt : forall n, (0 < n)%nat -> forall E, (forall b, length b = n -> length (E b) = n) -> forall V B m d s len, (n <= 16)%nat ->
  sep V n B (2 * n) -> forward d s len -> sep V n d len -> sep V n s len -> sep B (2 * n) d len -> sep B (2 * n) s len ->
  exists m', cfb8_encrypt_m E n V B m d s len = Ok m' /\
    read m' d len = cfb8_spec E (read m V n) (read m s len) /\
    read m' V n = shift_in n (read m V n) (cfb8_spec E (read m V n) (read m s len)) /\
    forall x, outside x d len -> outside x V n -> outside x B (2 * n) -> m' x = m x.
Proof. exact cfb8_encrypt_mem. Qed.
Print Assumptions C82_cfb8_encrypt.
Theorem C82_cfb8_decrypt : forall n E p V B W T m d s, (0 < n <= 16)%nat -> (forall b, length b = n -> length (E b) = n) ->
  let len := length p in read m s len = cfb8_spec E (read m V n) p ->
  sep B (2 * n) W (2 * n) -> forward d s len -> sep B (2 * n) d len -> sep B (2 * n) s len ->
  sep W (2 * n) d len -> sep W (2 * n) s len -> sep V n B (2 * n) -> sep V n W (2 * n) -> sep V n d len -> sep V n s len ->
  exists m', cfb8_decrypt_m E n V B W T m d s len = Ok m' /\ wrote m m' d p [(V, n); (B, 2 * n); (W, 2 * n)]%nat /\
    (Nat.modulo len n = O -> read m' V n = shift_in n (read m V n) (read m s len)).
Proof. exact cfb8_dec_buf. Qed.
Print Assumptions C82_cfb8_decrypt.

(** * CTR *)
Theorem C82_ctr : forall n E V B T m d s len t, (2 <= n <= 16)%nat -> (forall b, length b = n -> length (E b) = n) ->
  read m V n = be_bytes n t -> same_or_sep d s len -> (d = s -> n = 16%nat \/ (len < 64 /\ nblocks n len * n <= 64)%nat) ->
  sep V n d len -> sep V n s len -> sep V n B 64 -> sep B 64 d len -> sep B 64 s len ->
  exists m', ctr_encrypt_m E n V B T m d s len = Ok m' /\
    wrote m m' d (xorl (read m s len) (ctr_stream E n t (nblocks n len))) [(V, n); (B, 64%nat)] /\
    read m' V n = be_bytes n (t + Z.of_nat (nblocks n len)).
Proof. exact ctr_buf. Qed.
Print Assumptions C82_ctr.

(** * GCM: the session theorems C40 and C41 are about [gcm_encrypt] and
    [gcm_decrypt] on the bytes of the source. *)
Theorem C82_gcm_encrypt : forall E, bcipher E -> forall B T c m d s size, blk (g_ctr c) -> gcm_place d s size -> sep B 16 d size -> sep B 16 s size ->
  exists c' l m', gcm_encrypt E c (read m s size) = Ok (c', l) /\ gcm_encrypt_m E B T c m d s size = Ok (c', m') /\
    read m' d size = l /\ forall x, outside x d size -> outside x B 16 -> m' x = m x.
Proof. exact gcm_encrypt_mem. Qed.
Print Assumptions C82_gcm_encrypt.
Theorem C82_gcm_decrypt : forall E, bcipher E -> forall B T c m d s size, blk (g_ctr c) -> gcm_place d s size -> sep B 16 d size -> sep B 16 s size ->
  exists c' l m', gcm_decrypt E c (read m s size) = Ok (c', l) /\ gcm_decrypt_m E B T c m d s size = Ok (c', m') /\
    read m' d size = l /\ forall x, outside x d size -> outside x B 16 -> m' x = m x.
Proof. exact gcm_decrypt_mem. Qed.
Print Assumptions C82_gcm_decrypt.

(** * ARC4 *)
Theorem C82_arc4 : forall size c m d s, forward d s size ->
  let r := arc4_crypt c (read m s size) in
  exists m', arc4_crypt_m size c m d s = (fst r, m') /\ wrote m m' d (snd r) [] /\ length (snd r) = size.
Proof. exact arc4_buf. Qed.
Print Assumptions C82_arc4.

(** * Overlaps that give wrong bytes *)
(** One byte above the source: every routine that goes block by block or byte by byte. *)
Theorem C82_above_refuted : exists E D m s, cipher 2 E D /\
  read (crypt_m 2 2 E m (s + 1) s) (s + 1) 4 <> concat (map E (chunks 2 (read m s 4))) /\
  (exists m', cbc_encrypt_m E 2 0 m (s + 1) s 4 = Ok m' /\ read m' (s + 1) 4 <> concat (cbc_spec E (read m 0 2) (chunks 2 (read m s 4)))) /\
  (exists m', cfb_crypt_m 5 E 2 0 None m (s + 1) s 4 = Ok m' /\ read m' (s + 1) 4 <> concat (cfb_spec E (read m 0 2) (chunks 2 (read m s 4)))) /\
  (exists m', cfb8_encrypt_m E 2 0 200 m (s + 1) s 4 = Ok m' /\ read m' (s + 1) 4 <> cfb8_spec E (read m 0 2) (read m s 4)).
Proof. exact above_wrong. Qed.
Print Assumptions C82_above_refuted.
(** One byte below the source: CBC decryption, CTR and GCM work in two passes over
    the destination, so that no overlap is allowed (a block's distance, for GCM). *)
Theorem C82_below_refuted : exists E D m s, cipher 2 E D /\
  (exists m', cbc_decrypt_m D 2 0 300 400 None None m (s - 1) s 4 = Ok m' /\
     concat (cbc_spec E (read m 0 2) (chunks 2 (read m' (s - 1) 4))) <> read m s 4) /\
  (exists m', ctr_encrypt_m E 2 0 200 None m (s - 1) s 4 = Ok m' /\
     read m' (s - 1) 4 <> xorl (read m s 4) (ctr_stream E 2 (be_val (read m 0 2)) 2)).
Proof. exact below_wrong. Qed.
Print Assumptions C82_below_refuted.
Theorem C82_gcm_refuted : forall d, 0 < d < 16 -> exists E c m m' c' c1 l, bcipher E /\ blk (g_ctr c) /\
  gcm_encrypt_m E 200 None c m (100 - d) 100 16 = Ok (c', m') /\ gcm_encrypt E c (read m 100 16) = Ok (c1, l) /\ read m' (100 - d) 16 <> l.
Proof. exact gcm_below_wrong. Qed.
Print Assumptions C82_gcm_refuted.

(** * Non-vacuity: three blocks of 8 bytes, shifted down by 5 bytes; in place *)
Example C82_ex : let m := fun x => (7 * x) mod 256 in
  pow2 8 /\ cipher 8 toyE toyD /\ forward 95 100 24 /\ sep 0 8 95 24 /\ sep 0 8 100 24 /\
  (do m' <- cbc_encrypt_m toyE 8 0 m 95 100 27; Ok (read m' 95 8)) = Ok (map (fun x => (x + 1) mod 256) (rev (xorl (read m 100 8) (read m 0 8)))) /\
  (do m' <- ctr_encrypt_m toyE 8 0 200 None m 100 100 23; Ok (read m' 100 8)) = Ok (xorl (read m 100 8) (toyE (read m 0 8))).
Proof.
  intros m. split; [exists 3; split; [reflexivity|lia]|]. split; [apply toy_cipher|]. split; [unfold forward; lia|].
  split; [unfold sep; lia|]. split; [unfold sep; lia|].
  split; vm_compute; reflexivity.
Qed.
