(** C96: which keys are the same key.  [arc4_key_set], [aes_key_set]: the context a key
    gives; [hmac_run]: the code computed for a key and pieces of data. *)
From Verif Require Import Base BytesSpec Arc4Model HashSpec HmacModel Hmac AesModel Aes4 KeyEq.

(** AES: two keys of at least 16 bytes give the same context exactly if the 16, 24 or
    32 bytes in use ([aes_size] of the length) are the same. *)
Theorem C96_aes : forall key key', bytes key -> bytes key' -> (16 <= length key)%nat -> (16 <= length key')%nat ->
  aes_key_set key = aes_key_set key' <-> firstn (aes_size (length key)) key = firstn (aes_size (length key')) key'.
Proof. exact aes_same. Qed.
Print Assumptions C96_aes.
(** So a key of another length is taken, and what is beyond the bytes in use is dropped. *)
Theorem C96_aes_refuted : forall key extra, bytes key -> bytes extra ->
  (length key = 16 /\ length extra < 8 \/ length key = 24 /\ length extra < 8 \/ length key = 32)%nat ->
  aes_key_set (key ++ extra) = aes_key_set key.
Proof. exact aes_extra. Qed.
Print Assumptions C96_aes_refuted.
Example C96_aes_ex : bytes (repeat 7 16) /\ bytes [1; 2; 3] /\ length (repeat 7 16) = 16%nat /\ (length [1; 2; 3] < 8)%nat.
Proof. repeat split; try (cbn; lia); repeat constructor; unfold byte; lia. Qed.

(** ARC4: only the first 256 bytes of the endlessly repeated key count. *)
Theorem C96_arc4 : forall key key', key <> [] -> key' <> [] ->
  (forall t, (t < 256)%nat -> nth (t mod length key) key 0 = nth (t mod length key') key' 0) -> arc4_key_set key = arc4_key_set key'.
Proof. exact arc4_same. Qed.
Print Assumptions C96_arc4.
(** A key repeated is the same key, and what follows 256 bytes is dropped. *)
Theorem C96_arc4_repeat_refuted : forall key n, key <> [] -> (0 < n)%nat -> arc4_key_set (concat (repeat key n)) = arc4_key_set key.
Proof. exact arc4_repeat. Qed.
Print Assumptions C96_arc4_repeat_refuted.
Theorem C96_arc4_long_refuted : forall key a b, length key = 256%nat -> arc4_key_set (key ++ a) = arc4_key_set (key ++ b).
Proof. exact arc4_long. Qed.
Print Assumptions C96_arc4_long_refuted.
Example C96_arc4_ex : [1; 2] <> [] /\ (0 < 2)%nat /\ concat (repeat [1; 2] 2) = [1; 2; 1; 2] /\ length (repeat 5 256) = 256%nat.
Proof. repeat split; [discriminate|lia]. Qed.

(** HMAC, for every hash: zeros at the end of a key that still fits a block of 64 bytes
    change nothing. *)
Theorem C96_hmac_zeros_refuted : forall C (itf : hash_itf C) n key j ds, (length key + j <= 64)%nat ->
  hmac_run itf n (key ++ repeat 0 j) ds = hmac_run itf n key ds.
Proof. exact @hmac_zeros. Qed.
Print Assumptions C96_hmac_zeros_refuted.
(** A longer key is the same as its digest. *)
Theorem C96_hmac_long_refuted : forall key ds, bytes key -> (64 < length key)%nat ->
  hmac_run sha256_itf 32 key ds = hmac_run sha256_itf 32 (SHA256 key) ds.
Proof. exact hmac_long_sha256. Qed.
Print Assumptions C96_hmac_long_refuted.
Example C96_hmac_ex : (length [1; 2; 3] + 5 <= 64)%nat /\ bytes (repeat 7 65) /\ (64 < length (repeat 7 65))%nat.
Proof. repeat split; try (cbn; lia). apply Forall_forall. intros x Hx. apply repeat_spec in Hx. subst x. unfold byte. lia. Qed.
