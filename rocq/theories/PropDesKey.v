(** C94: what related DES keys have in common, and which keys are taken. *)
From Verif Require Import Base BytesSpec ModesModel ModesSpec Modes DesModel DesSpec DesKeySpec DesKey.

(** The last bit of each key byte has no effect, whatever the length of the key. *)
Theorem C94_parity : forall key key' l, same_but_parity key key' -> whole 8 l -> bytes l ->
  des_encrypt (des_key_set key) l = des_encrypt (des_key_set key') l /\ des_decrypt (des_key_set key) l = des_decrypt (des_key_set key') l.
Proof. exact parity. Qed.
Print Assumptions C94_parity.
Example C94_parity_ex : same_but_parity [0x13; 0x34; 0x57; 0x79; 0x9B; 0xBC; 0xDF; 0xF1] [0x12; 0x34; 0x56; 0x78; 0x9A; 0xBC; 0xDE; 0xF0].
Proof. reflexivity. Qed.

(** Triple DES contains single DES: two equal neighbours cancel. *)
Theorem C94_compat : forall k k' rest l, length k = 8%nat -> length k' = 8%nat -> whole 8 l -> bytes l ->
  des_encrypt (des_key_set (k ++ k ++ k' ++ rest)) l = des_encrypt (des_key_set k') l /\
  des_decrypt (des_key_set (k ++ k ++ k' ++ rest)) l = des_decrypt (des_key_set k') l /\
  des_encrypt (des_key_set (k' ++ k ++ k ++ rest)) l = des_encrypt (des_key_set k') l /\
  des_decrypt (des_key_set (k' ++ k ++ k ++ rest)) l = des_decrypt (des_key_set k') l.
Proof. exact equal_keys. Qed.
Print Assumptions C94_compat.

(** Inverting all bits of key and text inverts all bits of the result. *)
Theorem C94_complement : forall key l, length key = 8%nat -> bytes key -> whole 8 l -> bytes l ->
  exists m, des_encrypt (des_key_set key) l = Ok m /\ des_encrypt (des_key_set (flip key)) (flip l) = Ok (flip m).
Proof. exact complement8. Qed.
Print Assumptions C94_complement.
Theorem C94_complement3 : forall k1 k2 k3 l, length k1 = 8%nat -> length k2 = 8%nat -> length k3 = 8%nat -> bytes k1 -> bytes k2 -> bytes k3 -> whole 8 l -> bytes l ->
  exists m, des_encrypt (des_key_set (k1 ++ k2 ++ k3)) l = Ok m /\ des_encrypt (des_key_set (flip (k1 ++ k2 ++ k3))) (flip l) = Ok (flip m).
Proof. exact complement24. Qed.
Print Assumptions C94_complement3.
Example C94_complement_ex : exists key l : list Z, length key = 8%nat /\ bytes key /\ whole 8 l /\ bytes l /\ flip l <> l /\ flip key <> key.
Proof.
  exists [1; 2; 3; 4; 5; 6; 7; 8], (repeat 9 16). split; [reflexivity|]. split; [repeat constructor; unfold byte; lia|]. split; [exists 2%nat; reflexivity|].
  split; [repeat constructor; unfold byte; lia|]. split; discriminate.
Qed.

(** Weak and semi-weak keys are taken like any other: encrypting twice, or under the
    two keys of a pair, gives every message back in the clear. *)
Theorem C94_weak_refuted : forall k l, In k weak_keys -> whole 8 l -> bytes l ->
  exists m, des_encrypt (des_key_set k) l = Ok m /\ des_encrypt (des_key_set k) m = Ok l.
Proof. exact weak_msg. Qed.
Print Assumptions C94_weak_refuted.
Theorem C94_semi_refuted : forall k k' l, In (k, k') semi_weak_keys -> whole 8 l -> bytes l ->
  (exists m, des_encrypt (des_key_set k) l = Ok m /\ des_encrypt (des_key_set k') m = Ok l) /\
  (exists m, des_encrypt (des_key_set k') l = Ok m /\ des_encrypt (des_key_set k) m = Ok l).
Proof. exact semi_msg. Qed.
Print Assumptions C94_semi_refuted.
Example C94_weak_ex : length weak_keys = 4%nat /\ length semi_weak_keys = 6%nat /\ In (repeat 1 8) weak_keys.
Proof. split; [reflexivity|]. split; [reflexivity|left; reflexivity]. Qed.
