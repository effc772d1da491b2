(** C90: which texts Base64 decoding accepts.  [map alphabet v] is the text whose
    characters stand for the numbers [v], 61 is '='. *)
From Verif Require Import Base Base64Spec Base64Model Base64 Base64In.

(** A text without padding is decoded only to the bytes it encodes. *)
Theorem C90_full : forall v, v <> [] -> (length v mod 4 = 0)%nat -> Forall (fun x => 0 <= x < 64) v ->
  exists l, bytes l /\ decode (map alphabet v) = Ok l /\ rfc4648 l = map alphabet v.
Proof. exact full. Qed.
Print Assumptions C90_full.
(** With one or two '=' at the end, the bytes encode to the text in which the bits not
    used are 0: the text is the encoding exactly if they are. *)
Theorem C90_one : forall v a b c, (length v mod 4 = 0)%nat -> Forall (fun x => 0 <= x < 64) v -> 0 <= a < 64 -> 0 <= b < 64 -> 0 <= c < 64 ->
  exists l, bytes l /\ decode (map alphabet (v ++ [a; b; c]) ++ [61]) = Ok l /\ rfc4648 l = map alphabet (v ++ [a; b; 4 * (c / 4)]) ++ [61].
Proof. exact pad1. Qed.
Print Assumptions C90_one.
Theorem C90_two : forall v a b, (length v mod 4 = 0)%nat -> Forall (fun x => 0 <= x < 64) v -> 0 <= a < 64 -> 0 <= b < 64 ->
  exists l, bytes l /\ decode (map alphabet (v ++ [a; b]) ++ [61; 61]) = Ok l /\ rfc4648 l = map alphabet (v ++ [a; 16 * (b / 16)]) ++ [61; 61].
Proof. exact pad2. Qed.
Print Assumptions C90_two.
(** "TWFu" *)
Example C90_full_ex : map alphabet [19; 22; 5; 46] = [84; 87; 70; 117] /\ Forall (fun x => 0 <= x < 64) [19; 22; 5; 46].
Proof. split; [reflexivity|]. repeat constructor; discriminate. Qed.

(** So bytes whose number is not a multiple of three have more than one text. *)
Theorem C90_refuted : forall l, bytes l -> (length l mod 3 <> 0)%nat -> exists s, decode s = Ok l /\ length s = length (rfc4648 l) /\ s <> rfc4648 l.
Proof. exact other_text. Qed.
Print Assumptions C90_refuted.
(** "TQ==" and "TR==" *)
Example C90_ex : decode [84; 81; 61; 61] = Ok [77] /\ decode [84; 82; 61; 61] = Ok [77].
Proof. vm_compute. auto. Qed.
(** Padding in the middle is accepted: what follows is decoded as well. *)
Theorem C90_joined_refuted : forall u v x y, decode u = Ok x -> decode v = Ok y -> decode (u ++ v) = Ok (x ++ y).
Proof. exact joined. Qed.
Print Assumptions C90_joined_refuted.
(** A '=' at the first or second place of a group counts as an 'A'. *)
Theorem C90_equals_refuted : forall u a b c d r, (length u mod 4 = 0)%nat ->
  decode (u ++ 61 :: b :: c :: d :: r) = decode (u ++ 65 :: b :: c :: d :: r) /\ decode (u ++ a :: 61 :: c :: d :: r) = decode (u ++ a :: 65 :: c :: d :: r).
Proof. exact eq_as_a. Qed.
Print Assumptions C90_equals_refuted.
(** A '=' at the third place only drops the byte in the middle. *)
Theorem C90_gap_refuted : forall a b d, 0 <= a < 64 -> 0 <= b < 64 -> 0 <= d < 64 -> decode [alphabet a; alphabet b; 61; alphabet d] = Ok [4 * a + b / 16; d].
Proof. exact gap. Qed.
Print Assumptions C90_gap_refuted.
(** "====", "TQ==TQ==", "TQ=Q" *)
Example C90_equals_ex : decode [61; 61; 61; 61] = Ok [0] /\ decode [84; 81; 61; 61; 84; 81; 61; 61] = Ok [77; 77] /\ decode [84; 81; 61; 81] = Ok [77; 16].
Proof. vm_compute. auto. Qed.
