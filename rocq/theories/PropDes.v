(** C30, C31: DES and triple DES.  [ecb 8 f l] applies f to each eight bytes of l. *)
From Verif Require Import Base BytesSpec ModesModel ModesSpec Modes DesModel DesSpec Des3.

(** * C31: with an eight-byte key the calls are DES, with 24 bytes or more they
    are TDEA under the first three eight-byte keys, as in FIPS 46-3. *)
Theorem C31_des : forall key l, length key = 8%nat -> whole 8 l -> bytes l ->
  des_encrypt (des_key_set key) l = Ok (ecb 8 (DES key) l) /\
  des_decrypt (des_key_set key) l = Ok (ecb 8 (DES_inv key) l).
Proof. exact des_single8. Qed.
Print Assumptions C31_des.
Theorem C31_tdea : forall k1 k2 k3 rest l, length k1 = 8%nat -> length k2 = 8%nat -> length k3 = 8%nat -> whole 8 l -> bytes l ->
  let key := k1 ++ k2 ++ k3 ++ rest in
  des_encrypt (des_key_set key) l = Ok (ecb 8 (TDEA k1 k2 k3) l) /\
  des_decrypt (des_key_set key) l = Ok (ecb 8 (TDEA_inv k1 k2 k3) l).
Proof. exact des_triple. Qed.
Print Assumptions C31_tdea.
(** Every other size: single DES, on the first eight bytes of the key padded with
    zeros.  In particular a sixteen-byte (two-key) triple DES key is cut. *)
Theorem C31_other_sizes : forall key l, (length key < 24)%nat -> whole 8 l -> bytes l ->
  let k := firstn 8 (key ++ repeat 0 (24 - length key)) in
  des_encrypt (des_key_set key) l = Ok (ecb 8 (DES k) l) /\
  des_decrypt (des_key_set key) l = Ok (ecb 8 (DES_inv k) l).
Proof. exact des_single. Qed.
Print Assumptions C31_other_sizes.

(** * C30: decryption undoes encryption and the other way round, whatever the key. *)
Theorem C30_dec_enc : forall key l, whole 8 l -> bytes l ->
  exists m, des_encrypt (des_key_set key) l = Ok m /\ length m = length l /\ bytes m /\ des_decrypt (des_key_set key) m = Ok l.
Proof. intro key. exact (des_round_trip (des_key_set key)). Qed.
Print Assumptions C30_dec_enc.
Theorem C30_enc_dec : forall key l, whole 8 l -> bytes l ->
  exists m, des_decrypt (des_key_set key) l = Ok m /\ length m = length l /\ bytes m /\ des_encrypt (des_key_set key) m = Ok l.
Proof. intro key. exact (des_round_trip' (des_key_set key)). Qed.
Print Assumptions C30_enc_dec.
(** So the theorems about modes of operation hold for it. *)
Theorem C30_cipher : forall key, cipher 8 (desE (des_key_set key)) (desD (des_key_set key)).
Proof. intro key. exact (des_cipher (des_key_set key)). Qed.
Print Assumptions C30_cipher.

(** The worked example of Grabbe's "DES algorithm illustrated", which is not taken from this code. *)
Definition ex_key : list Z := [0x13; 0x34; 0x57; 0x79; 0x9B; 0xBC; 0xDF; 0xF1].
Definition ex_pt : list Z := [0x01; 0x23; 0x45; 0x67; 0x89; 0xAB; 0xCD; 0xEF].
Example C31_ex : DES ex_key ex_pt = [0x85; 0xE8; 0x13; 0x54; 0x0F; 0x0A; 0xB4; 0x05].
Proof. vm_compute. reflexivity. Qed.
Example C31_ex_hyps : length ex_key = 8%nat /\ whole 8 (ex_pt ++ ex_pt) /\ bytes (ex_pt ++ ex_pt).
Proof. split; [reflexivity|]. split; [exists 2%nat; reflexivity|]. repeat (apply Forall_cons; [unfold byte; lia|]). constructor. Qed.
Example C30_ex : exists m, des_encrypt (des_key_set (ex_key ++ ex_pt ++ ex_key)) (ex_pt ++ ex_pt) = Ok m /\ m <> ex_pt ++ ex_pt.
Proof. eexists. split; [vm_compute; reflexivity|discriminate]. Qed.
(** A sixteen-byte key gives the same result as its first half alone. *)
Example C31_two_key : des_encrypt (des_key_set (ex_key ++ ex_pt)) ex_pt = Ok (DES ex_key ex_pt) /\ TDEA ex_key ex_pt ex_key ex_pt <> DES ex_key ex_pt.
Proof. split; [vm_compute; reflexivity|vm_compute; discriminate]. Qed.
