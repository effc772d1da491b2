(** Property C88: reading a number from text rejects what is not a numeral. *)
From Verif Require Import Base MpiModel MpiSpec MpiDivModel MpiAlgModel MpiIOModel MpiTextSpec TextSpec TextIn.

(** Every numeral is read, with its value. *)
Theorem C88_numeral : forall radix s, 2 <= radix <= 36 -> numeral radix s -> load_str radix s = Ok (ofZ (text_val radix s)).
Proof. exact (fun radix s H N => text_numeral radix s H (proj2 N)). Qed.
Print Assumptions C88_numeral.
(** "-zZ" in radix 36 *)
Example C88_numeral_ex : numeral 36 [45; 122; 90] /\ text_val 36 [45; 122; 90] = -1295.
Proof. split; [|reflexivity]. split; [discriminate|]. cbn [body]. repeat constructor; vm_compute; discriminate. Qed.

(** In every radix but 16, a text of letters and digits is read if and only if it is a numeral. *)
Theorem C88_letters : forall radix s, 2 <= radix <= 36 -> radix <> 16 -> c_string s -> body s <> [] -> Forall (fun c => ~ other_char c) (body s) ->
  (exists a, load_str radix s = Ok a) <-> numeral radix s.
Proof. exact text_letters. Qed.
Print Assumptions C88_letters.
(** "12a" in radix 10 *)
Example C88_letters_ex : c_string [49; 50; 97] /\ body [49; 50; 97] <> [] /\ Forall (fun c => ~ other_char c) (body [49; 50; 97]) /\ load_str 10 [49; 50; 97] = Err (-1).
Proof.
  split; [unfold c_string; cbn [In]; lia|]. split; [discriminate|].
  split; [cbn [body]; repeat constructor; intros [H _]; vm_compute in H; discriminate|vm_compute; reflexivity].
Qed.

(** What it does with every text: a digit or letter too large for the radix is an error,
    and any other character counts as the digit 0. *)
Theorem C88_exact : forall radix s, 2 <= radix <= 36 -> radix <> 16 -> c_string s ->
  (Forall (fun c => char_val c < radix) (body s) ->
    exists a, load_str radix s = Ok a /\ mval a = (if minus s then - num_val radix (map zeroed (body s)) else num_val radix (map zeroed (body s)))) /\
  (Exists (fun c => radix <= char_val c) (body s) -> load_str radix s = Err (-1)).
Proof. exact (fun radix s H N _ => text_exact radix s H N). Qed.
Print Assumptions C88_exact.
Theorem C88_hex : forall s, c_string s -> Forall (fun c => char_val c < 16) (body s) ->
  load_str 16 s = Ok (ofZ (if minus s then - num_val 16 (map zeroed (body s)) else num_val 16 (map zeroed (body s)))).
Proof. exact (fun s _ => text_hex s). Qed.
Print Assumptions C88_hex.
(** "1.5" and "+-7" in radix 10; "1 f", "g" and "zz" in radix 16 *)
Example C88_exact_ex : load_str 10 [49; 46; 53] = Ok (ofZ 105) /\ load_str 10 [43; 45; 55] = Ok (ofZ 7) /\
  load_str 16 [49; 32; 102] = Ok (ofZ 271) /\ load_str 16 [103] = Ok (ofZ 16) /\ load_str 16 [122; 122] = Ok (ofZ 51).
Proof. vm_compute. auto. Qed.

(** So a character that is no digit, anywhere after the first digit, goes unnoticed in
    every radix. *)
Theorem C88_refuted : forall radix s c t, 2 <= radix <= 36 -> s <> [] -> Forall (valid_digit radix) s -> Forall (valid_digit radix) t -> other_char c ->
  exists a, load_str radix (s ++ c :: t) = Ok a /\ mval a = num_val radix (s ++ 48 :: t).
Proof. exact text_other. Qed.
Print Assumptions C88_refuted.
(** In radix 16 nothing is ever rejected. *)
Theorem C88_hex_refuted : forall s, c_string s -> exists a, load_str 16 s = Ok a.
Proof. exact (fun s _ => text_hex_all s). Qed.
Print Assumptions C88_hex_refuted.
(** A text without any digit is read as 0. *)
Theorem C88_empty_refuted : forall radix s, 2 <= radix <= 36 -> body s = [] -> load_str radix s = Ok mzero.
Proof. exact text_empty. Qed.
Print Assumptions C88_empty_refuted.
Example C88_empty_ex : body [] = [] /\ body [45] = [].
Proof. split; reflexivity. Qed.
(** A lone such character is read as a number whose value is 0 but that the library does
    not take for zero; dividing by it never ends: the subtraction of zero is repeated
    whatever the number of rounds. *)
Theorem C88_zero_refuted : forall radix c, 2 <= radix <= 36 -> radix <> 16 -> other_char c -> c <> 43 -> c <> 45 ->
  exists z, load_str radix [c] = Ok z /\ mval z = 0 /\ is_zero z = false /\ forall v, 0 < v -> div_abs (ofZ v) z = Fuel.
Proof. exact text_lone. Qed.
Print Assumptions C88_zero_refuted.
Theorem C88_endless_refuted : forall fuel v q k, 0 < v -> div_top fuel (ofZ v) (shld (shl (mkmpi false [0]) 63) k) q = Fuel.
Proof. exact zero_endless. Qed.
Print Assumptions C88_endless_refuted.
(** After a minus sign it is even below zero. *)
Theorem C88_sign_refuted : forall radix c, 2 <= radix <= 36 -> radix <> 16 -> other_char c -> c <> 43 -> c <> 45 ->
  exists z, load_str radix [45; c] = Ok z /\ mval z = 0 /\ cmp z mzero = -1.
Proof. exact text_minus. Qed.
Print Assumptions C88_sign_refuted.
(** the space *)
Example C88_zero_ex : other_char 32 /\ 32 <> 43 /\ 32 <> 45.
Proof. repeat split; discriminate. Qed.
