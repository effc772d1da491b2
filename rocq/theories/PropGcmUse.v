(** C93: GCM tags depend on all of the data, texts never share key stream, and
    contexts can be used again. *)
From Verif Require Import Base BytesSpec ModesModel ModesToy GcmModel GcmSpec Gcm GcmLong GcmUseModel GcmUse.

(** * Using a context again.  Whatever calls came before, setting an IV gives the
    context that a freshly keyed one has: nothing of the earlier use is left in it. *)
Theorem C93_reuse : forall E l iv, bcipher E -> Forall gop_bytes l ->
  exists c, gop_run E (gcm_key_set E) l = Ok c /\ gcm_iv_set c iv = gcm_iv_set (gcm_key_set E) iv /\
    forall l' t, gop_tag E (l ++ GIv iv :: l') t = gop_tag E (GIv iv :: l') t.
Proof. exact reuse. Qed.
Print Assumptions C93_reuse.
Example C93_reuse_ex : bcipher toyE /\ Forall gop_bytes [GIv (repeat 0 12); GUpdate [1]; GEncrypt [2]; GDigest; GUpdate [3]; GDecrypt [4]].
Proof. split; [apply toy_bcipher|]. repeat constructor; lia. Qed.
(** Without a new IV, or a new initialisation for CMAC, asking for the tag once more
    gives another value. *)
Theorem C93_second_refuted : exists c t1 t2, gop_run toyE (gcm_key_set toyE) [GIv (repeat 0 12); GUpdate [1]] = Ok c /\
  gcm_digest toyE c 16 = Ok t1 /\ gcm_digest toyE (gcm_digested c) 16 = Ok t2 /\ t1 <> t2.
Proof. exact again_gcm. Qed.
Print Assumptions C93_second_refuted.
Theorem C93_cmac_second_refuted : cmac_digest toyE (cmac_digested toyE cmac_init) <> cmac_digest toyE cmac_init.
Proof. exact again_cmac. Qed.
Print Assumptions C93_cmac_second_refuted.

(** * 2^29 zero bytes in front change nothing: the bit length is kept in 32 bits, and
    zero blocks leave the hash at zero.  So under every key other additional data, and
    other ciphertexts where there is no additional data, have the same tag, and other
    IVs give the same run. *)
Theorem C93_aad_refuted : forall n enc E iv a m t, Z.of_nat n = 2 ^ 29 -> bcipher E -> bytes iv -> bytes a -> bytes m -> (t <= 16)%nat ->
  gcm_session enc E iv [repeat 0 n ++ a] [m] t = gcm_session enc E iv [a] [m] t.
Proof. exact zeros_aad'. Qed.
Print Assumptions C93_aad_refuted.
Theorem C93_text_refuted : forall n E iv c t, Z.of_nat n = 2 ^ 29 -> bcipher E -> bytes iv -> bytes c -> (t <= 16)%nat ->
  exists p p' tag, gcm_session false E iv [] [c] t = Ok (p, tag) /\ gcm_session false E iv [] [repeat 0 n ++ c] t = Ok (p', tag).
Proof. exact zeros_text'. Qed.
Print Assumptions C93_text_refuted.
Theorem C93_iv_refuted : forall n enc E iv aads ms t, Z.of_nat n = 2 ^ 29 -> bcipher E -> bytes iv -> length iv <> 12%nat ->
  pieces aads -> pieces ms -> Forall bytes aads -> Forall bytes ms -> (t <= 16)%nat ->
  gcm_session enc E (repeat 0 n ++ iv) aads ms t = gcm_session enc E iv aads ms t.
Proof. exact zeros_iv'. Qed.
Print Assumptions C93_iv_refuted.
Example C93_zeros_ex : (exists n, Z.of_nat n = 2 ^ 29) /\ bcipher toyE /\ bytes [1; 2; 3] /\ length [1; 2; 3] <> 12%nat.
Proof.
  split; [destruct (long_zeros (2 ^ 29)) as (a & L & _); [lia|exists (length a); exact L]|]. split; [apply toy_bcipher|].
  split; [repeat constructor; lia|discriminate].
Qed.

(** * The counter has 32 bits and nothing stops at its end: after 2^36 bytes a text
    is encrypted as at the start, and the block before that is hidden by what hides
    the tag: there a block of zeros is encrypted to the tag of the empty message. *)
Theorem C93_wrap_refuted : forall E iv a b t, Z.of_nat (length a) = 2 ^ 36 -> bcipher E -> bytes iv -> bytes a -> bytes b -> (t <= 16)%nat ->
  exists o1 o2 tag1 tag2, gcm_session true E iv [] [b] t = Ok (o2, tag1) /\ gcm_session true E iv [] [a ++ b] t = Ok (o1 ++ o2, tag2) /\ length o1 = length a.
Proof. exact text_wrap'. Qed.
Print Assumptions C93_wrap_refuted.
Theorem C93_mask_refuted : forall E iv a t, Z.of_nat (length a) = 2 ^ 36 - 16 -> bcipher E -> bytes iv -> bytes a -> (t <= 16)%nat ->
  exists o mask tag, gcm_session true E iv [] [a ++ repeat 0 16] t = Ok (o ++ mask, tag) /\ length o = length a /\
    gcm_session true E iv [] [] 16 = Ok ([], mask) /\ length mask = 16%nat.
Proof. exact text_mask'. Qed.
Print Assumptions C93_mask_refuted.
Example C93_wrap_ex : bcipher toyE /\ (exists a : list Z, Z.of_nat (length a) = 2 ^ 36 /\ bytes a) /\ (exists a : list Z, Z.of_nat (length a) = 2 ^ 36 - 16 /\ bytes a).
Proof. split; [apply toy_bcipher|]. split; apply long_zeros; lia. Qed.

(** * Pieces that are not whole blocks are each filled up with zeros, and the order of
    the calls is not looked at: under every key other data has the same tag. *)
Theorem C93_pieces_refuted : forall enc E iv a b k ms t, bcipher E -> bytes iv -> bytes a -> bytes b ->
  (0 < length a)%nat -> (length a + k <= 16)%nat -> (0 < length b)%nat -> (length b + k <= 16)%nat ->
  gcm_session enc E iv [a ++ repeat 0 k; b] ms t = gcm_session enc E iv [a; b ++ repeat 0 k] ms t.
Proof. exact ragged. Qed.
Print Assumptions C93_pieces_refuted.
Theorem C93_order_refuted : forall E iv x y t, bcipher E -> bytes iv -> length x = length y ->
  gop_tag E [GIv iv; GDecrypt x; GUpdate y] t = gop_tag E [GIv iv; GUpdate x; GDecrypt y] t.
Proof. exact order_tag. Qed.
Print Assumptions C93_order_refuted.
Example C93_pieces_ex : concat [[1] ++ repeat 0 2; [5]] <> concat [[1]; [5] ++ repeat 0 2] /\
  (exists tag, gop_tag toyE [GIv [1]; GDecrypt [7]; GUpdate [9]] 16 = Ok tag /\ length tag = 16%nat).
Proof. split; [discriminate|]. eexists. split; [vm_compute; reflexivity|reflexivity]. Qed.
