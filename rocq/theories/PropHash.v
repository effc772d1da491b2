(** Properties C45 to C48 (digests) and C43 (HMAC).  The specifications are
    HashSpec.v (FIPS 180-4, RFC 1321) and HmacSpec.v (RFC 2104).  [ds] is the
    message in the pieces it was given in. *)
From Verif Require Import Base BytesSpec HashModel HashSpec HashMd HashMd2 HmacModel HmacSpec Hmac Hmac2.

(** the length the code writes into the padding: 32 bits of each piece's length *)
Definition len32 (ds : list (list Z)) : Z := fold_right Z.add 0 (map (fun d => Z.of_nat (length d) mod 2 ^ 32) ds).
Definition abc : list Z := [97; 98; 99].

(** *** C45: MD5 *)
Theorem C45_md5 : forall ds, Forall bytes ds -> Forall (fun d => Z.of_nat (length d) < 2 ^ 32) ds ->
  md5_digest (fold_left md5_update ds md5_init) = MD5 (concat ds).
Proof. exact md5_ok. Qed.
Print Assumptions C45_md5.

(** ... and of pieces of any size: the length field counts each piece modulo 2^32 *)
Theorem C45_any_piece : forall ds, Forall bytes ds ->
  md5_digest (fold_left md5_update ds md5_init) =
    concat (map (le_bytes 4) (iterate 64 md5_compress HMD5 (pad_with 64 8 (le_bytes 8 (8 * len32 ds)) (concat ds)))).
Proof. exact md5_exact'. Qed.
Print Assumptions C45_any_piece.

Example C45_ex : md5_digest (fold_left md5_update [[97]; []; [98; 99]] md5_init) = be_bytes 16 0x900150983cd24fb0d6963f7d28e17f72 /\
  MD5 abc = be_bytes 16 0x900150983cd24fb0d6963f7d28e17f72 /\ MD5 [] = be_bytes 16 0xd41d8cd98f00b204e9800998ecf8427e.
Proof.
  assert (P : forall d, Z.of_nat (length d) < 2 ^ 32 -> bytes d -> MD5 d = md5_digest (fold_left md5_update [d] md5_init)).
  { intros d L B. rewrite C45_md5 by auto. cbn [concat]. rewrite app_nil_r. reflexivity. }
  rewrite !P; [vm_compute; auto|reflexivity|constructor|reflexivity|]. repeat (apply Forall_cons; [unfold byte; lia|]). constructor.
Qed.

(** *** C46: SHA-1 *)
Theorem C46_sha1 : forall ds, Forall bytes ds -> Forall (fun d => Z.of_nat (length d) < 2 ^ 32) ds ->
  sha1_digest (fold_left sha1_update ds sha1_init) = SHA1 (concat ds).
Proof. exact sha1_ok. Qed.
Print Assumptions C46_sha1.

Theorem C46_any_piece : forall ds, Forall bytes ds ->
  sha1_digest (fold_left sha1_update ds sha1_init) =
    out_be 4 (iterate 64 sha1_compress H160 (pad_with 64 8 (be_bytes 8 (8 * len32 ds)) (concat ds))).
Proof. exact sha1_exact'. Qed.
Print Assumptions C46_any_piece.

Example C46_ex : sha1_digest (fold_left sha1_update [[97]; []; [98; 99]] sha1_init) = be_bytes 20 0xa9993e364706816aba3e25717850c26c9cd0d89d /\
  SHA1 abc = be_bytes 20 0xa9993e364706816aba3e25717850c26c9cd0d89d /\ SHA1 [] = be_bytes 20 0xda39a3ee5e6b4b0d3255bfef95601890afd80709.
Proof. vm_compute. auto. Qed.

(** *** C47: SHA-256, for every message in every partition *)
Theorem C47_sha256 : forall ds, Forall bytes ds -> sha256_digest (fold_left sha256_update ds sha256_init) = SHA256 (concat ds).
Proof. exact sha256_ok. Qed.
Print Assumptions C47_sha256.

Theorem C47_cut_irrelevant : forall ds es, Forall bytes ds -> Forall bytes es -> concat ds = concat es ->
  sha256_digest (fold_left sha256_update ds sha256_init) = sha256_digest (fold_left sha256_update es sha256_init).
Proof. exact sha256_cut. Qed.
Print Assumptions C47_cut_irrelevant.

Example C47_ex : sha256_digest (fold_left sha256_update [[97]; []; [98; 99]] sha256_init) = be_bytes 32 0xba7816bf8f01cfea414140de5dae2223b00361a396177a9cb410ff61f20015ad /\
  SHA256 abc = be_bytes 32 0xba7816bf8f01cfea414140de5dae2223b00361a396177a9cb410ff61f20015ad.
Proof. vm_compute. auto. Qed.
(** a message of two blocks *)
Example C47_ex2 : sha256_digest (sha256_update sha256_init (repeat 97 56)) = SHA256 (repeat 97 56) /\
  SHA256 (repeat 97 56) = be_bytes 32 0xb35439a4ac6f0948b6d6f9e3c6af0f5f590ce20f1bde7090ef7970686ec6738a.
Proof. vm_compute. auto. Qed.

(** *** C48: SHA-512 and SHA-384.  False when 112 to 127 bytes are left in the
    last block: the length is put into a block that is never processed. *)
Theorem C48_last_block_refuted : exists ds, Forall bytes ds /\ Forall (fun d => Z.of_nat (length d) < 2 ^ 32) ds /\
  sha512_digest (fold_left sha512_update ds (sha512_init false)) <> SHA512 (concat ds) /\
  sha512_digest (fold_left sha512_update ds (sha512_init true)) <> SHA384 (concat ds).
Proof. exact sha512_refuted. Qed.
Print Assumptions C48_last_block_refuted.

Theorem C48_sha512_partial : forall ds, Forall bytes ds -> Forall (fun d => Z.of_nat (length d) < 2 ^ 32) ds -> (length (concat ds) mod 128 < 112)%nat ->
  sha512_digest (fold_left sha512_update ds (sha512_init false)) = SHA512 (concat ds) /\
  sha512_digest (fold_left sha512_update ds (sha512_init true)) = SHA384 (concat ds).
Proof. exact sha512_ok. Qed.
Print Assumptions C48_sha512_partial.

(** what is computed for the other messages: the last block, padded with zeros and no length *)
Theorem C48_other_lengths : forall is384 ds, Forall bytes ds -> (112 <= length (concat ds) mod 128)%nat ->
  sha512_digest (fold_left sha512_update ds (sha512_init is384)) =
    firstn (if is384 then 48 else 64) (out_be 8 (iterate 128 sha512_compress (if is384 then H384 else H512)
      (concat ds ++ [128] ++ repeat 0 (127 - length (concat ds) mod 128)))).
Proof. exact sha512_other. Qed.
Print Assumptions C48_other_lengths.

Example C48_ex : (length abc mod 128 < 112)%nat /\
  sha512_digest (fold_left sha512_update [[97]; []; [98; 99]] (sha512_init false)) = be_bytes 64
    0xddaf35a193617abacc417349ae20413112e6fa4e89a97ea20a9eeee64b55d39a2192992a274fc1a836ba3c23a3feebbd454d4423643ce80e2a9ac94fa54ca49f /\
  SHA384 abc = be_bytes 48 0xcb00753f45a35e8bb5a03d699ac65007272c32ab0eded1631a8b605a43ff5bed8086072ba1e7cc2358baeca134c825a7.
Proof. split; [cbn; lia|]. vm_compute. auto. Qed.

(** *** C43: HMAC *)
Theorem C43_hmac_sha256 : forall key ds, bytes key -> Forall bytes ds ->
  hmac_run sha256_itf 32 key ds = Ok (HMAC 64 SHA256 key (concat ds)).
Proof. exact hmac_sha256. Qed.
Print Assumptions C43_hmac_sha256.

Theorem C43_hmac_sha1 : forall key ds, bytes key -> Z.of_nat (length key) < 2 ^ 32 -> Forall bytes ds -> Forall (fun d => Z.of_nat (length d) < 2 ^ 32) ds ->
  hmac_run sha1_itf 20 key ds = Ok (HMAC 64 SHA1 key (concat ds)).
Proof. exact hmac_sha1. Qed.
Print Assumptions C43_hmac_sha1.

Theorem C43_hmac_md5 : forall key ds, bytes key -> Z.of_nat (length key) < 2 ^ 32 -> Forall bytes ds -> Forall (fun d => Z.of_nat (length d) < 2 ^ 32) ds ->
  hmac_run md5_itf 16 key ds = Ok (HMAC 64 MD5 key (concat ds)).
Proof. exact hmac_md5. Qed.
Print Assumptions C43_hmac_md5.

(** any hash that meets its specification [H], with digests of [n] <= 64 bytes, for
    pieces meeting [ok] (which all pieces of at most 64 bytes do) *)
Theorem C43_hmac_any : forall C (itf : hash_itf C) (ok : list Z -> Prop) H n key ds,
  (forall ds, Forall bytes ds -> Forall ok ds -> hi_digest itf (fold_left (hi_update itf) ds (hi_init itf)) = H (concat ds)) ->
  (forall m, length (H m) = n /\ bytes (H m)) -> (forall d, (length d <= 64)%nat -> ok d) -> (n <= 64)%nat ->
  bytes key -> ok key -> Forall bytes ds -> Forall ok ds ->
  hmac_run itf n key ds = Ok (HMAC 64 H key (concat ds)).
Proof. exact hmac_any. Qed.
Print Assumptions C43_hmac_any.

(** RFC 2104 with SHA-512 has blocks of 128 bytes; the code always uses 64 *)
Theorem C43_hmac_sha512_refuted : exists key m, bytes key /\ bytes m /\
  hmac_run (sha512_itf false) 64 key [m] <> Ok (HMAC 128 SHA512 key m).
Proof. exact hmac_sha512_refuted. Qed.
Print Assumptions C43_hmac_sha512_refuted.

(** RFC 4231, test case 2 *)
Example C43_ex : hmac_run sha256_itf 32 [74; 101; 102; 101] [[119; 104; 97; 116; 32; 100; 111; 32; 121; 97; 32; 119; 97; 110; 116; 32]; [102; 111; 114; 32; 110; 111; 116; 104; 105; 110; 103; 63]] =
  Ok (be_bytes 32 0x5bdcc146bf60754e6a042426089575c75a003f089d2739839dec58b964ec3843).
Proof. vm_compute. reflexivity. Qed.
Example C43_ex_long_key : (64 < length (repeat 170 131))%nat /\ hmac_run sha256_itf 32 (repeat 170 131) [abc] = Ok (HMAC 64 SHA256 (repeat 170 131) abc).
Proof. split; [cbn; lia|]. vm_compute. reflexivity. Qed.
