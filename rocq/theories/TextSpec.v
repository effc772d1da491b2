(** Specification of signed numerals in ASCII. *)
From Verif Require Import Base MpiTextSpec.

(** A text is an optional sign, '-' or '+', and a body. *)
Definition minus (s : list Z) : bool := match s with c :: _ => c =? 45 | [] => false end.
Definition body (s : list Z) : list Z := match s with c :: r => if ((c =? 45) || (c =? 43))%bool then r else s | [] => [] end.
Definition text_val (radix : Z) (s : list Z) : Z := if minus s then - num_val radix (body s) else num_val radix (body s).
Definition numeral (radix : Z) (s : list Z) : Prop := body s <> [] /\ Forall (valid_digit radix) (body s).

(** a text ends before its first 0 *)
Definition c_string (s : list Z) : Prop := ~ In 0 s.
(** neither a letter nor a digit, nor the end of the text *)
Definition other_char (c : Z) : Prop := char_val c = -1 /\ c <> 0.
(** the text with every such character of the body replaced by the digit 0 *)
Definition zeroed (c : Z) : Z := if char_val c =? -1 then 48 else c.
