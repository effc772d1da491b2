(** C44: AES key wrap.  [aes_size n] is the number of key bytes used when n are given. *)
From Verif Require Import Base BytesSpec AesModel AesSpec Aes4 Aes5 WrapModel WrapSpec Wrap Wrap2.

(** Wrapping adds 8 bytes, and unwrapping restores the data (8 bytes or more). *)
Theorem C44_roundtrip : forall key l, bytes key -> (16 <= length key)%nat -> bytes l -> (8 <= length l)%nat ->
  exists w, cry_aes_wrap l key = Ok w /\ length w = (length l + 8)%nat /\ bytes w /\ cry_aes_unwrap w key = Ok (0, l).
Proof. exact wrap_roundtrip. Qed.
Print Assumptions C44_roundtrip.
(** Only the wrapping of what is returned is accepted. *)
Theorem C44_sound : forall key w x, bytes key -> (16 <= length key)%nat -> bytes w ->
  cry_aes_unwrap w key = Ok (0, x) -> cry_aes_wrap x key = Ok w.
Proof. exact unwrap_sound. Qed.
Print Assumptions C44_sound.
(** Otherwise the code is -1 and the output all zero. *)
Theorem C44_failure : forall key w, bytes key -> (16 <= length key)%nat -> bytes w -> (16 <= length w)%nat ->
  exists rc x, cry_aes_unwrap w key = Ok (rc, x) /\ length x = (length w - 8)%nat /\ (rc = 0 \/ rc = -1 /\ x = repeat 0 (length w - 8)).
Proof. exact unwrap_total. Qed.
Print Assumptions C44_failure.
(** Up to 42 blocks of 8 bytes: RFC 3394 with the AES of FIPS 197. *)
Theorem C44_rfc3394 : forall key p, bytes key -> (16 <= length key)%nat -> bytes p -> (length p mod 8 = 0)%nat -> (length p <= 8 * 42)%nat ->
  cry_aes_wrap p key = Ok (rfc_wrap (fips_cipher (firstn (aes_size (length key)) key)) p).
Proof. exact wrap_rfc. Qed.
Print Assumptions C44_rfc3394.
Theorem C44_rfc3394_unwrap : forall key w, bytes key -> (16 <= length key)%nat -> bytes w -> (length w mod 8 = 0)%nat -> (16 <= length w <= 8 * 43)%nat ->
  cry_aes_unwrap w key = Ok (match rfc_unwrap (fips_inv_cipher (firstn (aes_size (length key)) key)) w with Some q => (0, q) | None => (-1, repeat 0 (length w - 8)) end).
Proof. exact unwrap_rfc. Qed.
Print Assumptions C44_rfc3394_unwrap.
(** In general: the counter is taken modulo 256, and the bytes after the last whole
    block are copied in clear. *)
Theorem C44_exact : forall key p tl, bytes key -> (16 <= length key)%nat -> bytes p -> (length p mod 8 = 0)%nat -> (length tl < 8)%nat ->
  cry_aes_wrap (p ++ tl) key = Ok (wrap8 (fips_cipher (firstn (aes_size (length key)) key)) p ++ tl).
Proof. exact wrap_exact. Qed.
Print Assumptions C44_exact.
(** So from 43 blocks on it is not RFC 3394. *)
Theorem C44_rfc3394_refuted : exists key p, bytes key /\ length key = 16%nat /\ bytes p /\ length p = (8 * 43)%nat /\
  cry_aes_wrap p key <> Ok (rfc_wrap (fips_cipher key) p).
Proof. exact (ex_intro _ key0 (ex_intro _ data0 (conj (bytes_zero 16) (conj eq_refl (conj (bytes_zero (8 * 43)) (conj eq_refl beyond_42)))))). Qed.
Print Assumptions C44_rfc3394_refuted.
(** Unwrapping less than 16 bytes reads a buffer that was never written. *)
Theorem C44_short_refuted : forall w key, (length w < 16)%nat -> bytes key -> (16 <= length key)%nat -> cry_aes_unwrap w key = UB.
Proof. exact unwrap_short. Qed.
Print Assumptions C44_short_refuted.

(** RFC 3394, 4.1; a changed byte is noticed *)
Example C44_ex : cry_aes_wrap (be_bytes 16 0x00112233445566778899AABBCCDDEEFF) (be_bytes 16 0x000102030405060708090A0B0C0D0E0F)
  = Ok (be_bytes 24 0x1FA68B0A8112B447AEF34BD8FB5A7B829D3E862371D2CFE5).
Proof. vm_compute. reflexivity. Qed.
Example C44_ex_bad : cry_aes_unwrap (be_bytes 24 0x1FA68B0A8112B447AEF34BD8FB5A7B829D3E862371D2CFE6) (be_bytes 16 0x000102030405060708090A0B0C0D0E0F)
  = Ok (-1, repeat 0 16).
Proof. vm_compute. reflexivity. Qed.
(** a tail of three bytes *)
Example C44_ex_tail : (do w <- cry_aes_wrap (repeat 1 11) (repeat 7 16); Ok (skipn 16 w)) = Ok [1; 1; 1].
Proof. vm_compute. reflexivity. Qed.
