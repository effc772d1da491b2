(** C40, C41: GCM.  C42: CMAC. *)
From Verif Require Import Base BytesSpec Modes ModesToy GcmModel GcmSpec Cmac Gcm GcmLong.

(** * Field multiplication: the product of the two blocks' polynomials modulo
    x^128 + x^7 + x^2 + x + 1. *)
Theorem C41_field : forall x y, bytes x -> length x = 16%nat -> length y = 16%nat -> gf_mul x y = bmul x y.
Proof. exact GcmMul.gf_mul_ok. Qed.
Print Assumptions C41_field.
(** [bmul] is a remainder: *)
Theorem C41_field_remainder : forall x y, bytes x -> length x = 16%nat -> length y = 16%nat ->
  Poly2Spec.is_rem 128 gcm_poly (Poly2Spec.clmul (gpoly y) (gpoly x)) (gpoly (gf_mul x y)).
Proof. exact (fun x y B L _ => proj2 (proj2 (GcmMul.gf_mul_rem x y B L))). Qed.
Print Assumptions C41_field_remainder.

(** * A session: IV, additional data and text in pieces (each but the last a
    whole number of blocks), tag of t bytes. *)
Theorem C40_roundtrip : forall E iv aads aads' msgs t, bcipher E -> bytes iv -> pieces aads -> pieces aads' -> pieces msgs ->
  Forall bytes aads -> Forall bytes msgs -> Forall bytes aads' -> concat aads' = concat aads -> (t <= 16)%nat ->
  exists ct tag, gcm_session true E iv aads msgs t = Ok (ct, tag) /\ length ct = length (concat msgs) /\
    forall cts, pieces cts -> concat cts = ct -> gcm_session false E iv aads' cts t = Ok (concat msgs, tag).
Proof. exact gcm_roundtrip. Qed.
Print Assumptions C40_roundtrip.
Theorem C41_standard : forall enc E iv aads msgs t, bcipher E -> bytes iv -> pieces aads -> pieces msgs -> Forall bytes aads -> Forall bytes msgs -> (t <= 16)%nat ->
  8 * Z.of_nat (length iv) < 2 ^ 32 -> 8 * Z.of_nat (length (concat aads)) < 2 ^ 32 -> 8 * Z.of_nat (length (concat msgs)) < 2 ^ 32 ->
  let o := gcm_cipher E iv (concat msgs) in
  gcm_session enc E iv aads msgs t = Ok (o, gcm_tag E iv (concat aads) (if enc then o else concat msgs) t).
Proof. exact gcm_standard. Qed.
Print Assumptions C41_standard.
(** The bit lengths are stored in 32 bits: an IV of 2^29 bytes gives another
    key stream than the standard's. *)
Theorem C41_long_refuted : exists E iv m ct tag, bcipher E /\ bytes iv /\ Z.of_nat (length iv) = 2 ^ 29 /\ bytes m /\
  gcm_session true E iv [] [m] 16 = Ok (ct, tag) /\ ct <> gcm_cipher E iv m.
Proof. exact long_iv_differs. Qed.
Print Assumptions C41_long_refuted.
Example C40_ex : bcipher toyE /\ pieces [repeat 7 32; [1; 2; 3]] /\
  (exists tag, gcm_session true toyE [1; 2; 3] [[9]] [repeat 7 32; [1; 2; 3]] 4 = Ok (gcm_cipher toyE [1; 2; 3] (repeat 7 32 ++ [1; 2; 3]), tag)).
Proof.
  split; [apply toy_bcipher|]. split; [constructor; [exists 2%nat; reflexivity|constructor]|].
  eexists. vm_compute. reflexivity.
Qed.
(** NIST example: H and the first ciphertext block of test case 2 *)
Example C41_ex : bmul (be_bytes 16 0x0388dace60b6a392f328c2b971b2fe78) (be_bytes 16 0x66e94bd4ef8a2c3b884cfa59ca342b2e)
  = be_bytes 16 0x5e2ec746917062882c85b0685353deb7.
Proof. vm_compute. reflexivity. Qed.

(** * CMAC: any cut of the message, RFC 4493's value. *)
Theorem C42_cmac : forall E ds, (forall b, length b = 16%nat -> bytes b -> length (E b) = 16%nat /\ bytes (E b)) -> bytes (concat ds) ->
  cmac_digest E (fold_left (cmac_update E) ds cmac_init) = cmac_spec E (concat ds).
Proof. exact cmac_ok. Qed.
Print Assumptions C42_cmac.
Theorem C42_cut_irrelevant : forall E ds ds', concat ds = concat ds' ->
  cmac_digest E (fold_left (cmac_update E) ds cmac_init) = cmac_digest E (fold_left (cmac_update E) ds' cmac_init).
Proof. exact cmac_cut. Qed.
Print Assumptions C42_cut_irrelevant.
(** RFC 4493 subkeys *)
Example C42_ex : cmac_mul_x (be_bytes 16 0x7df76b0c1ab899b33e42f047b91b546f) = be_bytes 16 0xfbeed618357133667c85e08f7236a8de /\
  cmac_mul_x (be_bytes 16 0xfbeed618357133667c85e08f7236a8de) = be_bytes 16 0xf7ddac306ae266ccf90bc11ee46d513b.
Proof. split; vm_compute; reflexivity. Qed.
