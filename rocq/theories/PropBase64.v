(** Properties C22 and C23: Base64. *)
From Verif Require Import Base Base64Spec Base64Model Base64.

Theorem C22_roundtrip : forall l, bytes l -> l <> [] ->
  exists s, encode l = Ok s /\ s = rfc4648 l /\ decode s = Ok l /\ length s = (4 * ((length l + 2) / 3))%nat.
Proof. exact encode_ok. Qed.
Print Assumptions C22_roundtrip.

Theorem C22_bad_length : forall l, (length l mod 4 <> 0)%nat -> decode l = Err (-1).
Proof. exact decode_bad_length. Qed.
Print Assumptions C22_bad_length.

Theorem C22_bad_character : forall l, (length l mod 4 = 0)%nat -> (exists c, In c l /\ legal c = false) -> decode l = Err (-1).
Proof. exact decode_bad_char. Qed.
Print Assumptions C22_bad_character.

Theorem C22_legal_characters : forall c, byte c -> legal c = true <-> c = 61 \/ exists i, 0 <= i < 64 /\ c = alphabet i.
Proof. exact legal_spec. Qed.
Print Assumptions C22_legal_characters.

(** An empty string is not handled by either direction. *)
Theorem C22_empty_refuted : encode [] = UB /\ decode [] = UB.
Proof. vm_compute. auto. Qed.
Print Assumptions C22_empty_refuted.

(** "Man", "Ma", "M". *)
Example C22_ex : encode [77; 97; 110] = Ok [84; 87; 70; 117] /\ encode [77; 97] = Ok [84; 87; 69; 61] /\
  encode [77] = Ok [84; 81; 61; 61] /\ decode [84; 81; 61; 61] = Ok [77] /\ decode [84; 81; 200; 61] = Err (-1).
Proof. vm_compute. auto. Qed.

Theorem C23_rfc4648 : forall l, bytes l -> encode_loop l = rfc4648 l.
Proof. exact encode_rfc. Qed.
Print Assumptions C23_rfc4648.

(** RFC 4648 section 10: "foobar". *)
Example C23_ex : rfc4648 [102; 111; 111; 98; 97; 114] = [90; 109; 57; 118; 89; 109; 70; 121] /\ rfc4648 [102; 111; 111; 98] = [90; 109; 57; 118; 89; 103; 61; 61].
Proof. vm_compute. auto. Qed.
