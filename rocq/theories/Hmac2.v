(** Statements of PropHash.v in the form given there. *)
From Verif Require Import Base BytesSpec Bytes Lists HmacModel HmacSpec HashModel HashSpec HashComp HashMd HashMd2 Hmac.

Lemma counted_sum ds : counted ds = fold_right Z.add 0 (map (fun d => Z.of_nat (length d) mod 2 ^ 32) ds).
Proof. induction ds as [|d ds IH]; [reflexivity|]. cbn [counted fold_right map]. fold (counted ds). rewrite IH. reflexivity. Qed.
Lemma md5_exact' ds : Forall bytes ds -> md5_digest (fold_left md5_update ds md5_init) =
  concat (map (le_bytes 4) (iterate 64 md5_compress HMD5 (pad_with 64 8 (le_bytes 8 (8 * fold_right Z.add 0 (map (fun d => Z.of_nat (length d) mod 2 ^ 32) ds))) (concat ds)))).
Proof. intro H. rewrite <- counted_sum. apply md5_exact. auto. Qed.
Lemma sha1_exact' ds : Forall bytes ds -> sha1_digest (fold_left sha1_update ds sha1_init) =
  out_be 4 (iterate 64 sha1_compress H160 (pad_with 64 8 (be_bytes 8 (8 * fold_right Z.add 0 (map (fun d => Z.of_nat (length d) mod 2 ^ 32) ds))) (concat ds))).
Proof. intro H. rewrite <- counted_sum. apply sha1_exact. auto. Qed.
Lemma sha256_cut ds es : Forall bytes ds -> Forall bytes es -> concat ds = concat es ->
  sha256_digest (fold_left sha256_update ds sha256_init) = sha256_digest (fold_left sha256_update es sha256_init).
Proof. intros H1 H2 E. rewrite !sha256_ok by auto. rewrite E. reflexivity. Qed.
Lemma bytes_repeat n b : byte b -> bytes (repeat b n).
Proof. intro H. apply Forall_forall. intros x Hx. apply repeat_spec in Hx. subst. auto. Qed.
Lemma sha512_refuted : exists ds, Forall bytes ds /\ Forall (fun d => Z.of_nat (length d) < 2 ^ 32) ds /\
  sha512_digest (fold_left sha512_update ds (sha512_init false)) <> SHA512 (concat ds) /\
  sha512_digest (fold_left sha512_update ds (sha512_init true)) <> SHA384 (concat ds).
Proof.
  exists [repeat 97 112]. split; [constructor; [apply bytes_repeat; unfold byte; lia|constructor]|]. split; [constructor; [rewrite repeat_length; lia|constructor]|].
  unfold SHA512, SHA384, sha512_compress. rewrite <- K512_ok. split; vm_compute; discriminate.
Qed.
Lemma sha512_other is384 ds : Forall bytes ds -> (112 <= length (concat ds) mod 128)%nat ->
  sha512_digest (fold_left sha512_update ds (sha512_init is384)) =
    firstn (if is384 then 48 else 64) (out_be 8 (iterate 128 sha512_compress (if is384 then H384 else H512)
      (concat ds ++ [128] ++ repeat 0 (127 - length (concat ds) mod 128)))).
Proof. intros H L. rewrite sha512_exact by auto. destruct (Nat.ltb_spec (length (concat ds) mod 128) 112); [lia|]. reflexivity. Qed.
Lemma hmac_any C (itf : hash_itf C) (ok : list Z -> Prop) H n key ds :
  (forall ds, Forall bytes ds -> Forall ok ds -> hi_digest itf (fold_left (hi_update itf) ds (hi_init itf)) = H (concat ds)) ->
  (forall m, length (H m) = n /\ bytes (H m)) -> (forall d, (length d <= 64)%nat -> ok d) -> (n <= 64)%nat ->
  bytes key -> ok key -> Forall bytes ds -> Forall ok ds ->
  hmac_run itf n key ds = Ok (HMAC 64 H key (concat ds)).
Proof. intros. apply (hmac_ok itf ok); auto. split; auto. Qed.
Lemma hmac_sha256 key ds : bytes key -> Forall bytes ds -> hmac_run sha256_itf 32 key ds = Ok (HMAC 64 SHA256 key (concat ds)).
Proof. intros. apply (hmac_ok _ _ _ _ _ _ sha256_hashes); auto. apply Forall_forall. auto. Qed.
Lemma hmac_sha1 key ds : bytes key -> Z.of_nat (length key) < 2 ^ 32 -> Forall bytes ds -> Forall (fun d => Z.of_nat (length d) < 2 ^ 32) ds ->
  hmac_run sha1_itf 20 key ds = Ok (HMAC 64 SHA1 key (concat ds)).
Proof. intros. apply (hmac_ok _ _ _ _ _ _ sha1_hashes); auto. Qed.
Lemma hmac_md5 key ds : bytes key -> Z.of_nat (length key) < 2 ^ 32 -> Forall bytes ds -> Forall (fun d => Z.of_nat (length d) < 2 ^ 32) ds ->
  hmac_run md5_itf 16 key ds = Ok (HMAC 64 MD5 key (concat ds)).
Proof. intros. apply (hmac_ok _ _ _ _ _ _ md5_hashes); auto. Qed.
Lemma hmac_sha512_refuted : exists key m, bytes key /\ bytes m /\ hmac_run (sha512_itf false) 64 key [m] <> Ok (HMAC 128 SHA512 key m).
Proof.
  exists [1], [2]. split; [constructor; [unfold byte; lia|constructor]|]. split; [constructor; [unfold byte; lia|constructor]|].
  unfold HMAC, SHA512, sha512_compress. rewrite <- K512_ok. vm_compute. discriminate.
Qed.
