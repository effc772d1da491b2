(** Properties C37 (CBC), C38 (CFB) and C39 (CTR), for an arbitrary block cipher
    [E] with inverse [D] on blocks of as many bytes as the IV has. *)
From Verif Require Import Base BytesSpec ModesModel ModesSpec Modes Modes2 ModesToy.

(** * CBC *)
(** The output is that of SP 800-38A on the whole blocks of the input. *)
Theorem C37_spec : forall E c l, pow2 (cbc_len c) -> length (cbc_ctr c) = cbc_len c ->
  (forall b, length b = cbc_len c -> length (E b) = cbc_len c) ->
  let m := firstn (cbc_len c * (length l / cbc_len c)) l in
  let cs := cbc_spec E (cbc_ctr c) (chunks (cbc_len c) m) in
  cbc_encrypt E c l = Ok ({| cbc_ctr := last cs (cbc_ctr c); cbc_len := cbc_len c |}, concat cs).
Proof. exact cbc_encrypt_ok. Qed.
Print Assumptions C37_spec.
(** Decryption restores the data, in place or not, with or without memory for
    the temporary buffer; both contexts end with the same chaining value. *)
Theorem C37_roundtrip : forall E D iv m inplace mem, pow2 (length iv) -> (length iv <= 16)%nat -> cipher (length iv) E D ->
  bytes iv -> bytes m -> whole (length iv) m -> m <> [] ->
  exists c e, cbc_encrypt E (cbc_iv_set iv) m = Ok (c, e) /\ length e = length m /\
    cbc_decrypt D inplace mem (cbc_iv_set iv) e = Ok (c, m).
Proof. exact cbc_roundtrip. Qed.
Print Assumptions C37_roundtrip.
(** Pieces of whole blocks. *)
Theorem C37_encrypt_pieces : forall E ls c, pow2 (cbc_len c) -> length (cbc_ctr c) = cbc_len c ->
  (forall b, length b = cbc_len c -> length (E b) = cbc_len c) -> Forall (whole (cbc_len c)) ls ->
  calls (cbc_encrypt E) c ls = cbc_encrypt E c (concat ls).
Proof. exact cbc_enc_calls. Qed.
Print Assumptions C37_encrypt_pieces.
Theorem C37_decrypt_pieces : forall D inplace mem ls c, pow2 (cbc_len c) -> (cbc_len c <= 16)%nat -> length (cbc_ctr c) = cbc_len c ->
  (forall b, length b = cbc_len c -> length (D b) = cbc_len c) -> Forall (fun l => whole (cbc_len c) l /\ l <> []) ls -> ls <> [] ->
  calls (cbc_decrypt D inplace mem) c ls = cbc_decrypt D inplace mem c (concat ls).
Proof. exact cbc_dec_calls. Qed.
Print Assumptions C37_decrypt_pieces.
(** With no block to decrypt a length underflows. *)
Theorem C37_empty_refuted : exists E D iv, cipher (length iv) E D /\ pow2 (length iv) /\
  (exists c, cbc_encrypt E (cbc_iv_set iv) [] = Ok (c, [])) /\ forall inplace mem, cbc_decrypt D inplace mem (cbc_iv_set iv) [] = UB.
Proof.
  exists toyE, toyD, (repeat 0 8). split; [apply toy_cipher|]. split; [exists 3; split; [reflexivity|lia]|].
  split; [eexists; reflexivity|]. intros [] []; reflexivity.
Qed.
Print Assumptions C37_empty_refuted.
Example C37_ex : pow2 (length (repeat 7 8)) /\ cipher 8 toyE toyD /\ whole 8 (repeat 9 16) /\
  (do ' (c, e) <- cbc_encrypt toyE (cbc_iv_set (repeat 7 8)) (repeat 9 16); Ok e) =
    Ok (repeat 15 8 ++ repeat 7 8).
Proof. split; [exists 3; split; [reflexivity|lia]|]. split; [apply toy_cipher|]. split; [exists 2%nat; reflexivity|reflexivity]. Qed.

(** * CFB *)
(** Encryption is SP 800-38A CFB with full-block segments ([after]: bytes that
    follow the output in its buffer; the last short block makes the code read them). *)
Theorem C38_encrypt_is_cfb : forall E iv m after, (0 < length iv <= 16)%nat -> (forall b, length b = length iv -> length (E b) = length iv) ->
  (length iv <= length after)%nat ->
  exists c, cfb_crypt E (cfb_iv_set iv) m after = Ok (c, concat (cfb_spec E iv (chunks (length iv) m))).
Proof. exact cfb_encrypt_spec. Qed.
Print Assumptions C38_encrypt_is_cfb.
(** Decryption is the same routine, which feeds its own output back: wrong from
    the second block on. *)
Theorem C38_cfb_refuted : exists E D iv m after c e c' m', cipher (length iv) E D /\ bytes iv /\ bytes m /\
  cfb_crypt E (cfb_iv_set iv) m after = Ok (c, e) /\ cfb_crypt E (cfb_iv_set iv) e after = Ok (c', m') /\ m' <> m.
Proof.
  exists toyE, toyD, [0; 0], [1; 2; 3; 4], []. do 4 eexists.
  split; [apply toy_cipher|]. split; [repeat constructor; unfold byte; auto with zarith|].
  split; [repeat constructor; unfold byte; auto with zarith|].
  split; [reflexivity|]. split; [reflexivity|]. vm_compute. discriminate.
Qed.
Print Assumptions C38_cfb_refuted.
(** A short last block with nothing behind the output reads outside the buffer. *)
Theorem C38_tail_refuted : exists E D iv m, cipher (length iv) E D /\ cfb_crypt E (cfb_iv_set iv) m [] = UB.
Proof. exists toyE, toyD, [0; 0], [1]. split; [apply toy_cipher|]. reflexivity. Qed.
Print Assumptions C38_tail_refuted.
(** What is right: a message of at most one block. *)
Theorem C38_cfb_partial : forall E iv m after after', (0 < length iv <= 16)%nat -> (forall b, length b = length iv -> length (E b) = length iv) ->
  (length iv <= length after)%nat -> (length iv <= length after')%nat -> (length m <= length iv)%nat ->
  exists c e c', cfb_crypt E (cfb_iv_set iv) m after = Ok (c, e) /\ cfb_crypt E (cfb_iv_set iv) e after' = Ok (c', m).
Proof. exact cfb_one_block. Qed.
Print Assumptions C38_cfb_partial.
(** 8-bit segments: encryption is the SP 800-38A one, decryption inverts it. *)
Theorem C38_cfb8_spec : forall E junk iv m, (0 < length iv <= 16)%nat ->
  let c := cfb8_spec E iv m in
  cfb8_encrypt E junk (cfb_iv_set iv) m = ({| cfb_v := shift_in (length iv) iv c; cfb_len := length iv |}, c).
Proof. exact cfb8_encrypt_ok. Qed.
Print Assumptions C38_cfb8_spec.
Theorem C38_cfb8_roundtrip : forall E junk junk' iv m, (0 < length iv <= 16)%nat ->
  exists c e c', cfb8_encrypt E junk (cfb_iv_set iv) m = (c, e) /\ length e = length m /\
    cfb8_decrypt E junk' (cfb_iv_set iv) e = Ok (c', m) /\ (whole (length iv) m -> c' = c).
Proof. exact cfb8_roundtrip. Qed.
Print Assumptions C38_cfb8_roundtrip.
(** ... but a decryption of a number of bytes that is no multiple of the block
    size cannot be continued. *)
Theorem C38_cfb8_continue_refuted : exists E iv m1 m2 c1 e1 c2 e2 d1 d2 m2', 
  cfb8_encrypt E [] (cfb_iv_set iv) m1 = (c1, e1) /\ cfb8_encrypt E [] c1 m2 = (c2, e2) /\
  cfb8_decrypt E [] (cfb_iv_set iv) e1 = Ok (d1, m1) /\
  cfb8_decrypt E [] d1 e2 = Ok (d2, m2') /\ m2' <> m2.
Proof.
  exists (map (fun x => (x + 1) mod 256)), [1; 2; 3; 4], [5; 6; 7], [3]. do 7 eexists.
  split; [vm_compute; reflexivity|]. split; [vm_compute; reflexivity|]. split; [vm_compute; reflexivity|].
  split; [vm_compute; reflexivity|]. discriminate.
Qed.
Print Assumptions C38_cfb8_continue_refuted.
Example C38_ex : (0 < length [1; 2; 3; 4] <= 16)%nat /\
  snd (cfb8_encrypt toyE [] (cfb_iv_set [1; 2; 3; 4]) [5; 6; 7; 8; 9]) = [0; 7; 15; 24; 16].
Proof. split; [simpl; lia|]. vm_compute. reflexivity. Qed.

(** * CTR *)
(** The data XOR the encryptions of iv, iv+1, ... *)
Theorem C39_stream : forall E inplace junk iv m, (2 <= length iv <= 16)%nat -> bytes iv ->
  (forall b, length b = length iv -> length (E b) = length iv) ->
  (inplace = false \/ length iv = 16%nat \/ (length m < 64 /\ nblocks (length iv) (length m) * length iv <= 64)%nat) ->
  exists c, ctr_encrypt E inplace junk (ctr_iv_set iv) m =
    Ok (c, xorl m (ctr_stream E (length iv) (be_val iv) (nblocks (length iv) (length m)))).
Proof. exact ctr_spec_ok. Qed.
Print Assumptions C39_stream.
(** nblocks: enough blocks for every byte *)
Theorem C39_blocks : forall n l, (0 < n)%nat -> (l <= nblocks n l * n)%nat.
Proof. exact nblocks_le. Qed.
Print Assumptions C39_blocks.
Theorem C39_involution : forall E ip1 j1 ip2 j2 iv m, (2 <= length iv <= 16)%nat -> bytes iv ->
  (forall b, length b = length iv -> length (E b) = length iv) ->
  (ip1 = false \/ length iv = 16%nat \/ (length m < 64 /\ nblocks (length iv) (length m) * length iv <= 64)%nat) -> (ip2 = false \/ length iv = 16%nat \/ (length m < 64 /\ nblocks (length iv) (length m) * length iv <= 64)%nat) ->
  exists c e, ctr_encrypt E ip1 j1 (ctr_iv_set iv) m = Ok (c, e) /\ length e = length m /\ ctr_encrypt E ip2 j2 (ctr_iv_set iv) e = Ok (c, m).
Proof. exact ctr_involution. Qed.
Print Assumptions C39_involution.
(** Pieces of whole blocks, then a last one of any length. *)
Theorem C39_pieces : forall E inplace junk iv ls l, (2 <= length iv <= 16)%nat -> bytes iv ->
  (forall b, length b = length iv -> length (E b) = length iv) ->
  (inplace = false \/ length iv = 16%nat) -> Forall (whole (length iv)) ls ->
  calls (ctr_encrypt E inplace junk) (ctr_iv_set iv) (ls ++ [l]) = ctr_encrypt E inplace junk (ctr_iv_set iv) (concat ls ++ l).
Proof. exact ctr_pieces. Qed.
Print Assumptions C39_pieces.
(** In place, with blocks of 8 bytes (DES) and 64 bytes or more, half of each
    key-stream buffer is not counter blocks. *)
Theorem C39_inplace_refuted : exists E D iv m c1 o1 c2 o2, cipher (length iv) E D /\
  ctr_encrypt E false (repeat 0 64) (ctr_iv_set iv) m = Ok (c1, o1) /\ ctr_encrypt E true (repeat 0 64) (ctr_iv_set iv) m = Ok (c2, o2) /\ o1 <> o2.
Proof.
  exists toyE, toyD, [0; 0; 0; 0; 0; 0; 0; 1], (repeat 0 64). do 4 eexists. split; [apply toy_cipher|].
  split; [reflexivity|]. split; [reflexivity|]. vm_compute. discriminate.
Qed.
Print Assumptions C39_inplace_refuted.
(** In place, the counter blocks for less than 64 bytes are laid out in a buffer of
    64 bytes without looking at its size: five blocks of 13 bytes do not fit. *)
Theorem C39_overflow_refuted : forall E junk iv m, (length iv = 13)%nat -> (53 <= length m < 64)%nat -> ctr_encrypt E true junk (ctr_iv_set iv) m = UB.
Proof. exact ctr_overflow. Qed.
Print Assumptions C39_overflow_refuted.
(** A one-byte counter runs out of its buffer when it wraps. *)
Theorem C39_one_byte_refuted : exists E D m, cipher 1 E D /\ ctr_encrypt E false [] (ctr_iv_set [255]) m = UB.
Proof. exists toyE, toyD, [0]. split; [apply toy_cipher|]. reflexivity. Qed.
Print Assumptions C39_one_byte_refuted.
Example C39_ex : (2 <= length [9; 255] <= 16)%nat /\ bytes [9; 255] /\
  (do ' (c, o) <- ctr_encrypt toyE true [] (ctr_iv_set [9; 255]) [1; 1; 1; 1; 1]; Ok o) = Ok [1; 11; 0; 10; 3].
Proof. split; [simpl; lia|]. split; [repeat constructor; unfold byte; lia|]. vm_compute. reflexivity. Qed.
