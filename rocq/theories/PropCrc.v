(** Properties C24 and C25: cyclic redundancy checks. *)
From Verif Require Import Base Poly2Spec Poly2 CrcSpec CrcModel Crc.

(** *** C24: the register after a message is the remainder of the polynomial
    division, for every message and every starting register. *)
Theorem C24_ccitt : forall init m, 0 <= init < 2 ^ 16 -> bytes m ->
  is_crc 16 0x11021 init m (crc_update tab_ccitt init m).
Proof. exact crc_ccitt_ok. Qed.
Print Assumptions C24_ccitt.

Theorem C24_ibm : forall init m, 0 <= init < 2 ^ 16 -> bytes m ->
  is_crc 16 0x18005 init m (crc_update tab_ibm init m).
Proof. exact crc_ibm_ok. Qed.
Print Assumptions C24_ibm.

Theorem C24_dnp : forall init m, 0 <= init < 2 ^ 16 -> bytes m ->
  is_crc 16 0x13D65 init m (crc_update tab_dnp init m).
Proof. exact crc_dnp_ok. Qed.
Print Assumptions C24_dnp.

Theorem C24_eth : forall init m, 0 <= init < 2 ^ 32 -> bytes m ->
  is_crc 32 0x104C11DB7 init m (crc_update tab_eth init m).
Proof. exact crc_eth_ok. Qed.
Print Assumptions C24_eth.

(** The specification determines the register. *)
Theorem C24_unique : forall w g rp init m r r', good w g rp ->
  is_crc w g init m r -> is_crc w g init m r' -> r = r'.
Proof. exact is_crc_unique. Qed.
Print Assumptions C24_unique.

Theorem C24_unique_applies : good 16 0x11021 0x8408 /\ good 16 0x18005 0xA001 /\ good 16 0x13D65 0xA6BC /\ good 32 0x104C11DB7 0xEDB88320.
Proof. exact (conj good_ccitt (conj good_ibm (conj good_dnp good_eth))). Qed.
Print Assumptions C24_unique_applies.

(** Complement and byte swap at the end. *)
Theorem C24_final16 : forall compl swap r, 0 <= r < 2 ^ 16 ->
  crc16_final compl swap r =
    let c := if compl then 2 ^ 16 - 1 - r else r in if swap then c mod 256 * 256 + c / 256 else c.
Proof. exact crc16_final_ok. Qed.
Print Assumptions C24_final16.

Theorem C24_final32 : forall compl swap r, 0 <= r < 2 ^ 32 ->
  crc32_final compl swap r =
    let c := if compl then 2 ^ 32 - 1 - r else r in
    if swap then c mod 256 * 2 ^ 24 + (c / 2 ^ 8) mod 256 * 2 ^ 16 + (c / 2 ^ 16) mod 256 * 2 ^ 8 + (c / 2 ^ 24) mod 256 else c.
Proof. exact crc32_final_ok. Qed.
Print Assumptions C24_final32.

(** The published check values, for "123456789" (the two complemented 16-bit
    variants byte-swapped). *)
Example C24_ex : let m := [49; 50; 51; 52; 53; 54; 55; 56; 57] in
  crc16_ccitt m = 0x6E90 /\ crc16_ibm m = 0x4B37 /\ crc16_dnp m = 0x82EA /\ crc32_eth m = 0xCBF43926.
Proof. vm_compute. auto. Qed.

(** *** C25: splitting the message does not matter. *)
Theorem C25_chunks : forall tab init parts, crc_update tab init (concat parts) = fold_left (crc_update tab) parts init.
Proof. exact crc_chunks. Qed.
Print Assumptions C25_chunks.

Example C25_ex : fold_left (crc_update tab_eth) [[1; 2]; []; [3]; [4; 5; 6]] 7 = crc_update tab_eth 7 [1; 2; 3; 4; 5; 6].
Proof. vm_compute. reflexivity. Qed.
