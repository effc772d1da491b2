(** A 2^29-byte IV: the 32-bit length field wraps to zero. *)
From Verif Require Import Base BytesSpec Lists Modes ModesToy GcmModel GcmSpec Gcm.

Lemma toy_bcipher : bcipher toyE.
Proof. intros b L B. destruct (toy_cipher 16) as (A & C & _). auto. Qed.
Lemma long_iv_differs : exists E iv m ct tag, bcipher E /\ bytes iv /\ Z.of_nat (length iv) = 2 ^ 29 /\ bytes m /\
  gcm_session true E iv [] [m] 16 = Ok (ct, tag) /\ ct <> gcm_cipher E iv m.
Proof.
  pose (n := Z.to_nat (2 ^ 25)).
  assert (Hn : Z.of_nat n = 2 ^ 25) by (unfold n; apply Z2Nat.id; lia). clearbody n.
  assert (N : Z.of_nat (16 * n) = 2 ^ 29) by lia. assert (N1 : (1 <= n)%nat) by lia.
  destruct (long_iv n N1 N toyE toy_bcipher) as [J1 J2].
  exists toyE, (repeat 0 (16 * n)), [0; 0; 0; 0; 0; 0; 0; 0; 0; 0; 0; 0; 0; 0; 0; 0]. do 2 eexists.
  split; [apply toy_bcipher|]. split; [apply Bytes.bytes_repeat0|]. split; [rewrite repeat_length; auto|].
  split; [apply (Bytes.bytes_repeat0 16)|]. split.
  - apply session_ok; auto using toy_bcipher, Bytes.bytes_repeat0; try constructor.
    + apply (Bytes.bytes_repeat0 16).
    + constructor.
  - unfold gcm_cipher. rewrite J1, J2. cbn [concat app]. vm_compute. discriminate.
Qed.
