(** C27, C28, C29: AES.  [aes_size n] is the number of key bytes used when n are
    given: 32 from 32 on, 24 from 24 on, else 16. *)
From Verif Require Import Base BytesSpec AesModel AesSpec ModesModel ModesSpec Modes GcmModel GcmSpec Gcm Cmac Aes4.

(** * C28: a context after key_set, then any number of encryptions, then any
    number of decryptions: each call returns the standard's (inverse) cipher on
    each whole block of its data. *)
Theorem C28_fips197 : forall key es ds, bytes key -> (16 <= length key)%nat -> Forall bytes es -> Forall bytes ds ->
  exists c, aes_key_set key = Ok c /\
    aes_calls c (map Enc es ++ map Dec ds) = map (fips_op (firstn (aes_size (length key)) key)) (map Enc es ++ map Dec ds).
Proof. exact aes_fips. Qed.
Print Assumptions C28_fips197.

(** * C27: round trip, on one context and on a second one with the same key
    (encryption leaves the context as it was). *)
Theorem C27_roundtrip : forall key l, bytes key -> (16 <= length key)%nat -> bytes l -> whole 16 l ->
  exists c c', aes_key_set key = Ok c /\ let e := snd (aes_encrypt c l) in
    fst (aes_encrypt c l) = c /\ length e = length l /\ aes_decrypt c e = (c', l).
Proof. exact aes_roundtrip. Qed.
Print Assumptions C27_roundtrip.
(** So the theorems about modes of operation hold for AES. *)
Theorem C27_cipher : forall key, bytes key -> (16 <= length key)%nat -> let k := firstn (aes_size (length key)) key in
  cipher 16 (fips_cipher k) (fips_inv_cipher k).
Proof. exact aes_cipher. Qed.
Print Assumptions C27_cipher.

(** * C29: on one context an encryption after a decryption is wrong. *)
Theorem C29_reuse_refuted : exists key c d e, bytes key /\ length key = 16%nat /\ aes_key_set key = Ok c /\
  length e = 16%nat /\ aes_calls c [Dec d; Enc e] <> map (fips_op key) [Dec d; Enc e] /\
  nth 1 (aes_calls c [Dec d; Enc e]) [] <> nth 0 (aes_calls c [Enc e]) [].
Proof.
  exists (map Z.of_nat (seq 0 16)). eexists. exists [], (repeat 0 16).
  split; [apply Forall_forall; intros x Hx; apply in_map_iff in Hx as (i & <- & Hi); apply in_seq in Hi; unfold byte; lia|].
  split; [reflexivity|]. split; [vm_compute; reflexivity|]. split; [reflexivity|].
  split; vm_compute; discriminate.
Qed.
Print Assumptions C29_reuse_refuted.
(** What holds: the order "all encryptions, then all decryptions" is [C28_fips197]; in
    particular a context used in one direction only stays right: *)
Theorem C29_one_turn_partial : forall key es ds, bytes key -> (16 <= length key)%nat -> Forall bytes es -> Forall bytes ds ->
  exists c, aes_key_set key = Ok c /\
    aes_calls c (map Enc es ++ map Dec ds) = concat (map (fun o => aes_calls c [o]) (map Enc es ++ map Dec ds)).
Proof.
  exact (fun key es ds Hk L He Hd => aes_one_turn key es ds Hk L He Hd).
Qed.
Print Assumptions C29_one_turn_partial.

(** FIPS 197 appendix C *)
Definition pt := be_bytes 16 0x00112233445566778899aabbccddeeff.
Example C28_ex128 : (do c <- aes_key_set (map Z.of_nat (seq 0 16)); Ok (snd (aes_encrypt c pt))) = Ok (be_bytes 16 0x69c4e0d86a7b0430d8cdb78070b4c55a)
  /\ fips_cipher (map Z.of_nat (seq 0 16)) pt = be_bytes 16 0x69c4e0d86a7b0430d8cdb78070b4c55a.
Proof. split; vm_compute; reflexivity. Qed.
Example C28_ex192 : (do c <- aes_key_set (map Z.of_nat (seq 0 24)); Ok (snd (aes_encrypt c pt))) = Ok (be_bytes 16 0xdda97ca4864cdfe06eaf70a0ec0d7191)
  /\ fips_cipher (map Z.of_nat (seq 0 24)) pt = be_bytes 16 0xdda97ca4864cdfe06eaf70a0ec0d7191.
Proof. split; vm_compute; reflexivity. Qed.
Example C28_ex256 : (do c <- aes_key_set (map Z.of_nat (seq 0 32)); Ok (snd (aes_encrypt c pt))) = Ok (be_bytes 16 0x8ea2b7ca516745bfeafc49904b496089)
  /\ fips_cipher (map Z.of_nat (seq 0 32)) pt = be_bytes 16 0x8ea2b7ca516745bfeafc49904b496089.
Proof. split; vm_compute; reflexivity. Qed.
Example C27_ex : (do c <- aes_key_set (map Z.of_nat (seq 0 32)); Ok (snd (aes_decrypt c (snd (aes_encrypt c (pt ++ pt)))))) = Ok (pt ++ pt).
Proof. vm_compute. reflexivity. Qed.
(** RFC 4493 example 2 and the GCM specification's test case 2, with AES-128 *)
Example C42_aes : cmac_digest (fips_cipher (be_bytes 16 0x2b7e151628aed2a6abf7158809cf4f3c))
  (fold_left (cmac_update (fips_cipher (be_bytes 16 0x2b7e151628aed2a6abf7158809cf4f3c)))
    [be_bytes 16 0x6bc1bee22e409f96e93d7e117393172a] cmac_init)
  = be_bytes 16 0x070a16b46b4d4144f79bdd9dd04a287c.
Proof. vm_compute. reflexivity. Qed.
Example C41_aes : gcm_session true (fips_cipher (repeat 0 16)) (repeat 0 12) [] [repeat 0 16] 16
  = Ok (be_bytes 16 0x0388dace60b6a392f328c2b971b2fe78, be_bytes 16 0xab6e47d42cec13bdf53a67b21257bddf).
Proof. vm_compute. reflexivity. Qed.
